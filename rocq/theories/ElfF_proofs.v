(** Proofs about the unified ELF reader. *)
From Verif Require Import Core_proofs Str_proofs Util_proofs Hash_proofs Rel_proofs Note_proofs Ver_proofs File_proofs Elf_proofs ElfR_proofs Pod_proofs.
From Verif Require PeI_proofs Ar_proofs ArSym_proofs CoffR_proofs.
From Verif Require Import Obj_model ElfF_spec.

Lemma has_flags_bit x k : 0 <= k -> has_flags x (2 ^ k) = Z.testbit x k.
Proof. exact (CoffR_proofs.fl_has_bit x k). Qed.
Ltac flag k n := change (has_flags ?x n) with (has_flags x (2 ^ k)).

(** * Section kinds *)
Lemma kind_iff s k : section_kind s k <-> es_kind s = k.
Proof.
  unfold es_kind. change 2 with (2 ^ 1) at 1. change 4 with (2 ^ 2) at 1. change 1024 with (2 ^ 10). change 32 with (2 ^ 5).
  replace (has_flags (sh_flags s) 1) with (Z.testbit (sh_flags s) 0) by (symmetry; apply (has_flags_bit _ 0); lia).
  rewrite !has_flags_bit by lia.
  change [0; SHT_SYMTAB; SHT_STRTAB; SHT_RELA; 5; SHT_DYNAMIC; SHT_REL; SHT_DYNSYM; SHT_GROUP; SHT_SYMTAB_SHNDX; SHT_RELR; SHT_CREL] with metadata_types.
  change SHT_NOBITS with 8.
  assert (M : existsb (Z.eqb (sh_type s)) metadata_types = true <-> In (sh_type s) metadata_types).
  { rewrite existsb_exists. split; [intros (x & H & E); apply Z.eqb_eq in E; subst; exact H|intro H; eexists; split; [exact H|apply Z.eqb_refl]]. }
  assert (N : ~ In 1 metadata_types /\ ~ In 7 metadata_types /\ ~ In 8 metadata_types).
  { unfold metadata_types; cbn [In]. repeat split; intuition lia. }
  destruct N as (N1 & N7 & N8).
  split.
  - intros H. inversion H as [A B C|A B C D|A B C D E|A B C D E G|A B C D E G|A B C|A B C|A B|A B|A|A|A B C D]; subst k; unfold bit in *;
      try apply Bool.not_true_is_false in B; try apply Bool.not_true_is_false in C; try apply Bool.not_true_is_false in D;
      try apply Bool.not_true_is_false in E; try apply Bool.not_true_is_false in G;
      try (rewrite A in *; cbn [Z.eqb Pos.eqb]; try rewrite B; try rewrite C; try rewrite D; try rewrite E; try rewrite G; reflexivity).
    + destruct (Z.eqb_spec (sh_type s) 1) as [X|X]; [rewrite X in A; tauto|]. destruct (Z.eqb_spec (sh_type s) 8) as [Y|Y]; [rewrite Y in A; tauto|].
      destruct (Z.eqb_spec (sh_type s) 7) as [W|W]; [rewrite W in A; tauto|]. apply M in A. rewrite A. reflexivity.
    + destruct (Z.eqb_spec (sh_type s) 1); [lia|]. destruct (Z.eqb_spec (sh_type s) 8); [lia|]. destruct (Z.eqb_spec (sh_type s) 7); [lia|].
      destruct (existsb _ _) eqn:X; [exfalso; apply D, M; reflexivity|reflexivity].
  - intros <-. destruct (Z.eqb_spec (sh_type s) 1) as [X|X].
    + destruct (Z.testbit (sh_flags s) 1) eqn:B1; [destruct (Z.testbit (sh_flags s) 2) eqn:B2; [apply ek_text; assumption|];
        destruct (Z.testbit (sh_flags s) 10) eqn:B10; [apply ek_tls; unfold bit; congruence|];
        destruct (Z.testbit (sh_flags s) 0) eqn:B0; [apply ek_data; unfold bit; congruence|];
        destruct (Z.testbit (sh_flags s) 5) eqn:B5; [apply ek_rostring; unfold bit; congruence|apply ek_rodata; unfold bit; congruence]|].
      destruct (Z.testbit (sh_flags s) 5) eqn:B5; [apply ek_string; unfold bit; congruence|apply ek_other; unfold bit; congruence].
    + destruct (Z.eqb_spec (sh_type s) 8) as [Y|Y].
      { destruct (Z.testbit (sh_flags s) 10) eqn:B10; [apply ek_tbss; unfold bit; congruence|apply ek_bss; unfold bit; congruence]. }
      destruct (Z.eqb_spec (sh_type s) 7) as [W|W]; [apply ek_note; exact W|].
      destruct (existsb _ _) eqn:E; [apply ek_meta; apply M; reflexivity|].
      apply ek_unknown; try assumption. intro H. apply M in H. congruence.
Qed.

(** * Symbols *)
Lemma bind_type s : sym_ok s -> st_bind s = s_bind s /\ st_type s = s_type s /\ st_visibility s = s_vis s /\ 0 <= s_bind s < 16 /\ 0 <= s_type s < 16.
Proof.
  intros (A & B & C). unfold st_bind, st_type, st_visibility, s_bind, s_type, s_vis. rewrite Z.shiftr_div_pow2 by lia.
  change 15 with (Z.ones 4). change 3 with (Z.ones 2). rewrite !Z.land_ones by lia. change (2 ^ 4) with 16. change (2 ^ 2) with 4.
  repeat split; try reflexivity; try (apply Z.mod_pos_bound; lia); [apply Z.div_pos; lia|apply Z.div_lt_upper_bound; lia].
Qed.
Ltac zcase := match goal with |- context [?a =? ?b] => destruct (Z.eqb_spec a b) end.
Lemma sym_kind_iff s k : sym_ok s -> symbol_kind s k <-> ey_kind s = k.
Proof.
  intros H. destruct (bind_type s H) as (_ & T & _ & _ & Tb). unfold ey_kind. rewrite T. cbv zeta. split.
  - intros K. inversion K as [A|A|A|A|A|A]; subst k; cbn [In] in *; repeat zcase; cbn [orb]; try reflexivity; exfalso; lia.
  - intros <-. repeat zcase; cbn [orb]; first [apply yk_data; lia|apply yk_text; lia|apply yk_section; lia|apply yk_file; lia|apply yk_tls; lia|apply yk_unknown; cbn [In]; lia].
Qed.
Lemma sym_section_iff t i s r : sym_ok s -> symbol_in (smt_shndx t) i s r <-> ey_section t i s = r.
Proof.
  intros H. destruct (bind_type s H) as (_ & T & _ & _ & Tb). destruct H as (_ & _ & U). unfold u16_ok in U. unfold ey_section, symsec_index, symtab_shndx, SHN_XINDEX, SHN_LORESERVE. rewrite T. cbv zeta. split.
  - intros K. inversion K as [A|A B|A B|A|A|m A B C|A B|A B|A B C]; subst r; repeat zcase; try (exfalso; lia); try reflexivity; cbn [orb].
    + destruct (Z.leb_spec 65280 (st_shndx s)); [lia|reflexivity].
    + rewrite B. destruct (Z.eqb_spec m 0); [lia|reflexivity].
    + rewrite B. reflexivity.
    + rewrite B. reflexivity.
    + destruct (Z.leb_spec 65280 (st_shndx s)); [reflexivity|lia].
  - intros <-. destruct (Z.eqb_spec (st_shndx s) 0); [apply yi_undefined; assumption|]. cbn [orb].
    destruct (Z.eqb_spec (st_shndx s) 65521). { zcase; [apply yi_file; assumption|apply yi_absolute; assumption]. }
    destruct (Z.eqb_spec (st_shndx s) 65522); [apply yi_common; assumption|].
    destruct (Z.eqb_spec (st_shndx s) 65535).
    { destruct (zget (smt_shndx t) i) as [m|] eqn:E; [|apply yi_missing; assumption]. destruct (Z.eqb_spec m 0) as [->|]; [apply yi_extended_none; assumption|apply yi_extended; assumption]. }
    destruct (Z.leb_spec 65280 (st_shndx s)); [apply yi_reserved; lia|apply yi_small; lia].
Qed.
Lemma sym_scope_iff s k : sym_ok s -> symbol_scope s k <-> ey_scope s = k.
Proof.
  intros H. destruct (bind_type s H) as (B & _ & V & Bb & _). unfold ey_scope. rewrite B, V. split.
  - intros K. inversion K as [A|A A'|A A' A''|A A' A''|A A']; subst k; cbn [In] in *; repeat zcase; cbn [orb]; try reflexivity; exfalso; lia.
  - intros <-. repeat zcase; cbn [orb]; first [apply yc_undefined; lia|apply yc_local; lia|apply yc_hidden; lia|apply yc_dynamic; lia|apply yc_other; cbn [In]; lia].
Qed.
Lemma sym_def_iff t s : sym_ok s -> ey_definition t s = true <-> defines t s.
Proof.
  intros H. destruct (bind_type s H) as (B & T & _ & Bb & Tb). destruct H as (_ & _ & U). unfold u16_ok in U.
  unfold ey_definition, defines, shn_special, SHN_LORESERVE, SHN_XINDEX. rewrite B, T. cbv zeta.
  destruct (Z.eqb_spec (st_shndx s) 0) as [E0|E0]; cbn [orb].
  { destruct (Z.eqb_spec (st_shndx s) 65535); [lia|]. cbn [negb andb]. split; [discriminate|]. lia. }
  destruct (Z.eqb_spec (st_shndx s) 65535) as [E1|E1]; cbn [negb]; rewrite ?Bool.andb_false_r, ?Bool.andb_true_r.
  2: destruct (Z.leb_spec 65280 (st_shndx s)) as [L|L]; [split; [discriminate|lia]|].
  all: destruct (Z.eqb_spec (s_type s) 0) as [T0|T0]; cbn [andb orb].
  all: try (rewrite ?Bool.orb_false_r, Bool.orb_true_iff, !Z.eqb_eq; split; [intro X; repeat split; try lia; intros (C & _); lia|intros (_ & X & _); lia]).
  all: destruct (Z.eqb_spec (s_bind s) 0) as [B0|B0]; cbn [andb orb].
  all: try (rewrite ?Bool.orb_true_r; split; [intros _; repeat split; try lia; intros (_ & C & _); lia|reflexivity]).
  all: destruct (symbol_name t s) as [nm| |] eqn:E.
  all: try (split; [intros _; repeat split; try lia; intros (_ & _ & rest & C); congruence|reflexivity]).
  all: destruct nm as [|x nm]; cbn [starts_with negb].
  all: try (split; [intros _; repeat split; try lia; intros (_ & _ & rest & C); congruence|reflexivity]).
  all: destruct (Z.eqb_spec 36 x) as [X|X]; cbn [andb negb].
  all: split; [discriminate || (intros _; repeat split; try lia; intros (_ & _ & rest & C); congruence)|].
  all: intros (_ & _ & C); try reflexivity; exfalso; apply C; repeat split; try assumption; exists nm; congruence.
Qed.
(** * Iteration *)
(** the elements from number [n] on, with their numbers *)
Notation num n l := (combine (map Z.of_nat (seq n (length l))) l).
Lemma tl_num {A} (x : A) l : tl (num 0 (x :: l)) = num 1 l.
Proof. reflexivity. Qed.
Lemma numbered_split (t : symtab) : numbered t = [] /\ (length (smt_symbols t) <= 1)%nat \/ exists x l, smt_symbols t = x :: l /\ numbered t = num 1 l.
Proof. unfold numbered. destruct (smt_symbols t) as [|x l]; [left; split; [reflexivity|cbn; lia]|right; exists x, l; split; reflexivity]. Qed.
Lemma esym_runs_from t pre suf : smt_symbols t = pre ++ suf -> runs (esym_next t) (zlen pre) (num (length pre) suf) false (zlen (smt_symbols t)).
Proof.
  revert pre. induction suf as [|x suf IH]; intros pre E.
  - rewrite E, app_nil_r. apply runs_done. unfold esym_next. rewrite E, app_nil_r. replace (zget pre (zlen pre)) with (@None sym) by (symmetry; apply zget_None; lia). reflexivity.
  - cbn [length seq map combine]. eapply runs_more.
    + unfold esym_next. rewrite E. rewrite zget_mid by reflexivity. reflexivity.
    + specialize (IH (pre ++ [x])). rewrite <- app_assoc in IH. specialize (IH E). rewrite zlen_app in IH. rewrite app_length in IH. cbn [length] in IH.
      rewrite Nat.add_1_r in IH. change (zlen [x]) with 1 in IH. exact IH.
Qed.
Lemma esym_runs t : exists st', runs (esym_next t) 1 (numbered t) false st'.
Proof.
  unfold numbered. destruct (smt_symbols t) as [|x l] eqn:E.
  - exists 1. apply runs_done. unfold esym_next. rewrite E. reflexivity.
  - eexists. rewrite tl_num. exact (esym_runs_from t [x] l E).
Qed.
Lemma in_num {A} (l : list A) : forall n i s, In (i, s) (num n l) <-> Z.of_nat n <= i /\ zget l (i - Z.of_nat n) = Some s.
Proof.
  induction l as [|x l IH]; intros n j y; cbn [length seq map combine In].
  - split; [tauto|]. intros (_ & H). destruct (zget_Some_lt _ _ _ H) as [? H']. unfold zlen in H'; cbn in H'. lia.
  - rewrite IH. split.
    + intros [H|(A' & B)]; [injection H as <- <-; split; [lia|]; rewrite Z.sub_diag; apply zget_0|]. split; [lia|].
      rewrite zget_S by lia. replace (j - Z.of_nat n - 1) with (j - Z.of_nat (S n)) by lia. exact B.
    + intros (A' & B). destruct (Z.eq_dec j (Z.of_nat n)) as [->|Hne].
      * left. rewrite Z.sub_diag, zget_0 in B. congruence.
      * right. split; [lia|]. rewrite zget_S in B by lia. replace (j - Z.of_nat (S n)) with (j - Z.of_nat n - 1) by lia. exact B.
Qed.
Lemma in_tl_num {A} (l : list A) i s : In (i, s) (tl (num 0 l)) <-> i <> 0 /\ zget l i = Some s.
Proof.
  destruct l as [|x l].
  - cbn [length seq map combine tl In]. split; [tauto|]. intros (_ & H). destruct (zget_Some_lt _ _ _ H) as [? H']. unfold zlen in H'; cbn in H'. lia.
  - rewrite tl_num, in_num. change (Z.of_nat 1) with 1. split.
    + intros (A' & B). split; [lia|]. rewrite zget_S by lia. exact B.
    + intros (Hi & E). pose proof (zget_Some_lt _ _ _ E) as L. split; [lia|]. rewrite zget_S in E by lia. exact E.
Qed.
Lemma esym_by_index t i s : In (i, s) (numbered t) <-> ef_symbol t i = Ok (i, s).
Proof.
  unfold numbered. rewrite in_tl_num. unfold ef_symbol, symtab_symbol. destruct (Z.eqb_spec i 0) as [->|Hi]; cbn [bind]; [split; [tauto|discriminate]|].
  destruct (zget (smt_symbols t) i); cbn [of_opt bind]; split; try discriminate; [intros (_ & E); congruence|intro E; split; [exact Hi|congruence]|intros (_ & E); congruence].
Qed.
Lemma sections_all f : map fst (ef_all_sections f) = map Z.of_nat (seq 1 (length (stab_sections (ef_sections f)) - 1)) /\
  map snd (ef_all_sections f) = tl (stab_sections (ef_sections f)) /\
  forall i s, In (i, s) (ef_all_sections f) <-> ef_section f i = Ok (i, s).
Proof.
  unfold ef_all_sections, ef_section, stab_section, enumerate, seqZ. generalize (stab_sections (ef_sections f)). intro l. split; [|split].
  - destruct l as [|x l]; [reflexivity|]. rewrite tl_num. cbn [length]. replace (S (length l) - 1)%nat with (length l) by lia.
    apply map_fst_combine. rewrite map_length, seq_length. reflexivity.
  - destruct l as [|x l]; [reflexivity|]. rewrite tl_num. cbn [tl]. apply map_snd_combine. rewrite map_length, seq_length. reflexivity.
  - intros i s. rewrite in_tl_num. destruct (Z.eqb_spec i 0) as [->|Hi]; cbn [bind]; [split; [tauto|discriminate]|].
    destruct (zget l i); cbn [of_opt bind]; split; try discriminate; [intros (_ & E); congruence|intro E; split; [exact Hi|congruence]|intros (_ & E); congruence].
Qed.

(** * Sections by name *)
Lemma by_name_iff t name : match section_by_name t name with Some (i, s) => first_named t name i s | None => none_named t name end.
Proof.
  unfold section_by_name. pose proof (find_enumerate (fun s => match section_name t s with Ok n => bytes_eqb n name | _ => false end) (stab_sections t)) as H.
  cbv beta in H. assert (K : forall s, section_name t s = Ok name -> match section_name t s with Ok n => bytes_eqb n name | _ => false end = true).
  { intros s E. rewrite E. apply bytes_eqb_refl. }
  destruct (find _ _) as [[i s]|].
  - destruct H as (A & B & C). split; [exact A|]. split. { destruct (section_name t s); try discriminate. apply bytes_eqb_eq in B. congruence. }
    intros j s' J L E. specialize (C _ _ J L). rewrite (K _ E) in C. discriminate.
  - intros s I E. specialize (H _ I). rewrite (K _ E) in H. discriminate.
Qed.
Lemma first_named_fun t name i s j s' : first_named t name i s -> first_named t name j s' -> i = j /\ s = s'.
Proof.
  intros (A & B & C) (A' & B' & C'). destruct (Z.lt_trichotomy i j) as [L|[->|L]].
  - exfalso. exact (C' _ _ A L B).
  - split; [reflexivity|congruence].
  - exfalso. exact (C _ _ A' L B').
Qed.
Lemma by_name_some t name i s : section_by_name t name = Some (i, s) <-> first_named t name i s.
Proof.
  pose proof (by_name_iff t name) as H. destruct (section_by_name t name) as [[j s']|].
  - split; [intro E; assert (j = i /\ s' = s) as [-> ->] by (split; congruence); exact H|]. intro K. destruct (first_named_fun _ _ _ _ _ _ H K) as [-> ->]. reflexivity.
  - split; [discriminate|]. intros (A & B & _). exfalso. exact (H s (zget_In _ _ _ A) B).
Qed.
Lemma by_name_none t name : section_by_name t name = None <-> none_named t name.
Proof.
  pose proof (by_name_iff t name) as H. destruct (section_by_name t name) as [[j s']|].
  - split; [discriminate|]. intro K. destruct H as (A & B & _). exfalso. exact (K s' (zget_In _ _ _ A) B).
  - split; [intros _; exact H|reflexivity].
Qed.
Lemma starts_with_iff s p : starts_with s p = true <-> exists r, s = p ++ r.
Proof.
  revert s. induction p as [|x p IH]; intros s; cbn [starts_with].
  - split; [intros _; exists s; reflexivity|reflexivity].
  - destruct s as [|y s]; [split; [discriminate|intros (r & E); discriminate]|]. rewrite Bool.andb_true_iff, IH, Z.eqb_eq. split.
    + intros (-> & r & ->). exists r. reflexivity.
    + intros (r & E). cbn [app] in E. injection E as -> ->. split; [reflexivity|exists r; reflexivity].
Qed.
Lemma section_by_name_iff f name :
  (forall i s, ef_section_by_name f name = Ok (Some (i, s)) <->
    first_named (ef_sections f) name i s \/
    none_named (ef_sections f) name /\ exists rest, name = str ".debug_" ++ rest /\ first_named (ef_sections f) (str ".zdebug_" ++ rest) i s) /\
  (ef_section_by_name f name = Ok None <->
    none_named (ef_sections f) name /\ forall rest, name = str ".debug_" ++ rest -> none_named (ef_sections f) (str ".zdebug_" ++ rest)).
Proof.
  unfold ef_section_by_name, zdebug_by_name. pose proof (by_name_iff (ef_sections f) name) as N. destruct (section_by_name (ef_sections f) name) as [[i0 s0]|].
  - split.
    + intros i s. split; [intro E; left; assert (i0 = i /\ s0 = s) as [-> ->] by (split; congruence); exact N|].
      intros [H|(H & _)]; [destruct (first_named_fun _ _ _ _ _ _ N H) as [-> ->]; reflexivity|]. destruct N as (A & B & _). exfalso. exact (H _ (zget_In _ _ _ A) B).
    + split; [discriminate|]. intros (H & _). destruct N as (A & B & _). exfalso. exact (H _ (zget_In _ _ _ A) B).
  - assert (NF : forall i s, ~ first_named (ef_sections f) name i s). { intros i s (A & B & _). exact (N _ (zget_In _ _ _ A) B). }
    destruct (starts_with name (str ".debug_")) eqn:E; cbn [negb].
    + apply starts_with_iff in E as (rest & ->). change 7 with (zlen (str ".debug_")). rewrite get_from_app by reflexivity. cbn [unwrap bind]. split.
      * intros i s. split.
        -- intro H. assert (section_by_name (ef_sections f) (str ".zdebug_" ++ rest) = Some (i, s)) as K by congruence. apply by_name_some in K. right. split; [exact N|]. exists rest. split; [reflexivity|exact K].
        -- intros [H|(_ & r & Er & H)]; [exfalso; exact (NF _ _ H)|]. apply app_inv_head in Er. subst r. apply by_name_some in H. rewrite H. reflexivity.
      * split.
        -- intro H. assert (section_by_name (ef_sections f) (str ".zdebug_" ++ rest) = None) as K by congruence. apply by_name_none in K. split; [exact N|]. intros r Er. apply app_inv_head in Er. subst r. exact K.
        -- intros (_ & H). specialize (H rest eq_refl). apply by_name_none in H. rewrite H. reflexivity.
    + assert (NS : forall rest, name <> str ".debug_" ++ rest). { intros rest ->. rewrite (proj2 (starts_with_iff _ _)) in E by (exists rest; reflexivity). discriminate. }
      split.
      * intros i s. split; [discriminate|]. intros [H|(_ & r & Er & _)]; [exfalso; exact (NF _ _ H)|exfalso; exact (NS _ Er)].
      * split; [intros _; split; [exact N|intros r Er; exfalso; exact (NS _ Er)]|reflexivity].
Qed.
Lemma has_debug_iff f : ef_has_debug f = true <->
  exists s, In s (stab_sections (ef_sections f)) /\ (section_name (ef_sections f) s = Ok (str ".debug_info") \/ section_name (ef_sections f) s = Ok (str ".zdebug_info")).
Proof.
  unfold ef_has_debug. rewrite existsb_exists. split.
  - intros (s & I & E). exists s. split; [exact I|]. destruct (section_name _ s); try discriminate. apply Bool.orb_true_iff in E as [E|E]; apply bytes_eqb_eq in E; rewrite E; auto.
  - intros (s & I & [E|E]); exists s; (split; [exact I|]); rewrite E; rewrite bytes_eqb_refl, ?Bool.orb_true_r; reflexivity.
Qed.
(** * Relocation sections *)
Lemma reloc_index_iff is64 F f i h : efile_parse is64 F = Ok f ->
  (forall h0, zget (stab_sections (ef_sections f)) 0 = Some h0 -> ~ reloc_section h0) ->
  zget (stab_sections (ef_sections f)) i = Some h -> i <> 0 -> ~ reloc_section h ->
  es_reloc_index f i = match filter (relocates (ef_sections f) (smt_section (ef_symbols f)) i) (indices (ef_sections f)) with
    | [] => Ok None | [r] => Ok (Some r) | _ => Err end.
Proof.
  intros P H0 Hi Hn Hr. assert (R : relsec_parse (ef_sections f) (smt_section (ef_symbols f)) = Ok (ef_relocs f)).
  { unfold efile_parse in P. destruct (eh_parse is64 F) as [raw| |]; try discriminate. cbn [bind] in P. destruct (eh_endian raw) as [e| |]; try discriminate. cbn [bind] in P.
    destruct (program_headers is64 e raw F) as [ps| |]; try discriminate. cbn [bind] in P. destruct (eh_sections is64 e raw F) as [t| |]; try discriminate. cbn [bind] in P.
    destruct (stab_symbols is64 e F t SHT_SYMTAB) as [sy| |]; try discriminate. cbn [bind] in P. destruct (stab_symbols is64 e F t SHT_DYNSYM) as [dy| |]; try discriminate. cbn [bind] in P.
    destruct (relsec_parse t (smt_section sy)) as [r| |] eqn:E; try discriminate. cbn [bind] in P. injection P as <-. exact E. }
  pose proof (chain_exact _ _ _ _ _ R H0 Hi Hn Hr) as C. unfold es_reloc_index.
  destruct (filter _ _) as [|a l].
  - inversion C as [? E|]; subst. rewrite E. reflexivity.
  - inversion C as [|? ? ? E C']; subst. rewrite E. destruct l as [|b l]; inversion C' as [? E'|? ? ? E' C'']; subst; rewrite E'; reflexivity.
Qed.
