(** C84-C88.  The libraries, imports and exports of Mach-O files. *)
From Verif Require Import Base Core_proofs Util_proofs File_proofs Hash_proofs Iter_proofs Rel_proofs Ar_proofs Trie_proofs Coff_spec CoffR_proofs Mach_spec Mach_proofs MachP_proofs MachQ_proofs Dyld_spec Dyld_proofs DyldR_proofs DyldB_proofs FixI_proofs.
From Verif Require Pod_proofs.
From Verif Require Import Imp_spec Imp_proofs ImpD_proofs.

Lemma parsed_data is64 F f h l : parsed is64 F f h l -> mf_data f = F /\ mf_64 f = is64 /\ Forall (nlist_ok is64) (mt_symbols (mf_symbols f)) /\ bytes_ok F /\ zlen F < 2 ^ 63.
Proof.
  intros (HF & E & _). pose proof HF as (B & L). apply mach_iff in E; [|exact HF]. destruct E as (h' & r & l' & groups & tabs & _ & _ & _ & _ & _ & T & E64 & _ & _ & _ & Es & Ed).
  split; [exact Ed|]. split; [exact E64|]. split; [|auto]. rewrite Es. destruct tabs as [|t0 tabs]; [constructor|].
  assert (I : In (last (t0 :: tabs) msymtab_empty) (t0 :: tabs)).
  { clear. revert t0. induction tabs as [|y tabs IH]; intros t0; [left; reflexivity|]. right. change (In (last (y :: tabs) msymtab_empty) (y :: tabs)). apply IH. }
  revert T I. generalize (last (t0 :: tabs) msymtab_empty). generalize (t0 :: tabs). clear. intros ts x T I. induction T as [|c y l1 l2 Hxy _ IH]; [destruct I|]. destruct I as [->|I]; [|apply IH; exact I].
  destruct Hxy as (? & ? & ? & ? & _ & _ & _ & _ & _ & Fo & _). exact Fo.
Qed.
Lemma fold_parsed {A} is64 F f h l (step : A -> lcmd -> out A) acc a : parsed is64 F f h l -> mf_cmds_fold f step acc = Ok a <-> complete is64 F h l /\ fold_o step l acc = Ok a.
Proof. intros (HF & E & Ho & (r & Eh) & FC). eapply mf_fold_iff; eassumption. Qed.
Lemma commands_parsed is64 F f h l : parsed is64 F f h l -> Forall (cmd_ok (mf_endian f)) l.
Proof. intros (HF & E & Ho & (r & Eh) & FC). apply (load_ok _ _ _ _ _ _ HF E Ho Eh FC). Qed.
Lemma flags_parsed is64 F f h l : parsed is64 F f h l -> mh_flags (mf_endian f) (mf_header f) = mh_fl h.
Proof. intros (_ & _ & Ho & (r & Eh) & _). rewrite Eh. destruct (hdr_enc is64 (mf_endian f) h r Ho) as (Em & _). rewrite <- Em at 2. reflexivity. Qed.

(** * C84.  Libraries *)
(** Every file that is parsed has such a header and commands *)
Theorem C84_parsed is64 F f : file_ok F -> mach_parse is64 F = Ok f -> exists h l, parsed is64 F f h l.
Proof.
  intros HF E. pose proof E as E0. apply mach_iff in E; [|exact HF]. destruct E as (h & r & l & groups & tabs & Ho & _ & _ & FC & _ & _ & _ & Eh & _). exists h, l. unfold parsed. eauto 10.
Qed.
Print Assumptions C84_parsed.
(** The names of the libraries, after an empty name for ordinal 0: exactly if all commands can be read *)
Theorem C84_libraries is64 F f h l libs : parsed is64 F f h l ->
  mach_libraries f = Ok libs <-> complete is64 F h l /\ exists names, library_names (mf_endian f) l names /\ libs = [] :: names.
Proof. intros P. unfold mach_libraries. rewrite (fold_parsed _ _ _ _ _ _ _ _ P). pose proof (libraries_fold (mf_endian f) l (commands_parsed _ _ _ _ _ P) [[]] libs). tauto. Qed.
Print Assumptions C84_libraries.
Theorem C84_libraries_no_panic is64 F f h l : parsed is64 F f h l -> mach_libraries f <> Panic.
Proof. intros (HF & E & Ho & (r & Eh) & FC). apply (mf_fold_np is64 F f h r l _ _ (libraries_step_np (mf_endian f)) HF E Ho Eh FC). Qed.
Print Assumptions C84_libraries_no_panic.
(** The iteration over the libraries: a library or an error for each of their commands, with ordinals from 1, and an error if there are commands that cannot be read *)
Theorem C84_import_libraries is64 F f h l : parsed is64 F f h l ->
  (exists s L bad, import_libraries f = Ok s /\ libraries_of (mf_endian f) 0 l L /\ (bad = false <-> complete is64 F h l) /\ results (lib_next (mf_endian f)) s (L ++ bad_end bad)) \/
  (import_libraries f = Err /\ l = [] /\ ~ complete is64 F h l).
Proof.
  intros (HF & E & Ho & (r & Eh) & FC). destruct (load_ok _ _ _ _ _ _ HF E Ho Eh FC) as (K & Hl & _ & [(it & err & it' & E2 & R & N & Ln & _ & C)|(E2 & -> & C)]); unfold import_libraries; rewrite E2; cbn [bind]; [left|right; auto].
  destruct (libs_results _ _ _ _ _ R K N Ln 0 ltac:(lia) ltac:(lia)) as (L & H1 & H2). exists (it, 0), L, err. auto.
Qed.
Print Assumptions C84_import_libraries.
(** the results are unique *)
Theorem C84_results_unique {S A} (next : S -> out (option A) * S) st L L' : results next st L -> results next st L' -> L = L'.
Proof. intros H. apply results_fun. exact H. Qed.
Print Assumptions C84_results_unique.

(** * C85.  Symbols *)
Theorem C85_imports is64 F f h l libs twolevel : parsed is64 F f h l ->
  exists L, results (sym_import_next (mf_symbols f) libs twolevel) (mt_symbols (mf_symbols f)) L /\ picks (fun n => ~ undefined n) (symbol_import (mf_symbols f) libs twolevel) (mt_symbols (mf_symbols f)) L.
Proof.
  intros P. destruct (parsed_data _ _ _ _ _ P) as (_ & _ & K & _). apply first_from_picks. intros n Hn. apply (sym_import_ok is64); [exact (proj1 (Forall_forall _ _) K n Hn)|].
  intros o. unfold strings_get. destruct (mt_strings (mf_symbols f)) as [[d a] b]. apply strtab_get_no_panic.
Qed.
Print Assumptions C85_imports.
Theorem C85_exports is64 F f h l : parsed is64 F f h l ->
  exists L, results (sym_export_next f) (mt_symbols (mf_symbols f)) L /\ picks (not_exported (mf_symbols f)) (symbol_export f) (mt_symbols (mf_symbols f)) L.
Proof.
  intros P. destruct (parsed_data _ _ _ _ _ P) as (_ & _ & K & _). apply first_from_picks. intros n Hn. apply (sym_export_ok is64); [exact (proj1 (Forall_forall _ _) K n Hn)|].
  intros o. unfold strings_get. destruct (mt_strings (mf_symbols f)) as [[d a] b]. apply strtab_get_no_panic.
Qed.
Print Assumptions C85_exports.

(** * C86.  Chained fixups *)
Theorem C86_imports e libs symbols format n data l err : bytes_ok data -> 0 <= n -> imports_read e symbols format n data l err ->
  exists L, results (fix_import_next e libs) {| ci_imports := data; ci_symbols := symbols; ci_count := n; ci_format := format |} (L ++ bad_end err) /\ picks (fun c => cm_dylib c = 0) (fixup_import libs) l L.
Proof.
  intros B Hn R. apply (imports_iff e symbols format n data l err B Hn) in R as (st & R). destruct (fixups_results e libs _ _ _ _ R) as (L & H1 & H2). eauto.
Qed.
Print Assumptions C86_imports.

(** * C87.  Bind operations *)
Theorem C87_imports libs bind weak lazy L : bytes_ok bind -> bytes_ok weak -> bytes_ok lazy -> results (dm_next libs) (dyld_start bind weak lazy) L <-> dyld_imports libs bind weak lazy L.
Proof. exact (dyld_iff libs bind weak lazy L). Qed.
Print Assumptions C87_imports.
Theorem C87_total libs bind weak lazy : bytes_ok bind -> bytes_ok weak -> bytes_ok lazy -> exists L, results (dm_next libs) (dyld_start bind weak lazy) L.
Proof. intros B W Z'. destruct (dyld_exists libs bind weak lazy B W Z') as (L & R & _). eauto. Qed.
Print Assumptions C87_total.

(** * C88.  The exports trie, and which source is used *)
(** An export or an error for each of the symbols of the trie (C34); then it ends, or it has an error forever *)
Theorem C88_trie is64 F f h l D base syms err st : parsed is64 F f h l -> runs (exp_next D) node_new syms err st ->
  exists L s, steps (trie_export_next f D base) node_new L s /\ picks (fun _ => False) (trie_export_of f base) syms L /\ fst (trie_export_next f D base s) = if err then Err else Ok None.
Proof. intros P R. destruct (trie_steps f D base _ _ _ _ (C84_libraries_no_panic _ _ _ _ _ P) R) as (s & L & H1 & H2 & H3). exists L, s. auto. Qed.
Print Assumptions C88_trie.
(** the addresses of the trie are relative to the first segment with the name __TEXT *)
Theorem C88_base f : (exists g, is_first (fun g => field_name (g_name g) (str "__TEXT")) (mf_segments f) g /\ image_base f = g_vmaddr g) \/
  (Forall (fun g => ~ field_name (g_name g) (str "__TEXT")) (mf_segments f) /\ image_base f = 0).
Proof.
  assert (Q : forall g, bytes_eqb (seg_name g) TEXT = true <-> field_name (g_name g) (str "__TEXT")).
  { intros g. unfold seg_name. pose proof (until_null_field (g_name g)) as H. split.
    - intros E. apply bytes_eqb_eq in E. rewrite E in H. exact H.
    - intros H'. rewrite (field_name_fun _ _ _ H H'). apply bytes_eqb_refl. }
  unfold image_base. destruct (find (fun g => bytes_eqb (seg_name g) TEXT) (mf_segments f)) as [g|] eqn:E.
  - left. exists g. split; [|reflexivity]. pose proof (proj1 (MachQ_proofs.find_first _ _ _) E) as N0. revert N0. apply is_first_ext. intros y. symmetry. apply Q.
  - right. split; [|reflexivity]. pose proof (proj1 (MachQ_proofs.find_none _ _) E) as N0. eapply Forall_impl; [|exact N0]. cbv beta. intros g N N'. apply N, Q, N'.
Qed.
Print Assumptions C88_base.
(** The imports are those of the last command for chained fixups, or else of the last one for bind operations, or else of the symbol table *)
Theorem C88_imports is64 F f h l I : parsed is64 F f h l -> let e := mf_endian f in
  mach_imports f = Ok I <->
  complete is64 F h l /\ sized [0x80000034] 16 l /\ sized [0x22; 0x80000022] 48 l /\
  ((exists c data hb it libs, last_with (has_number [0x80000034]) l c /\ chained_fixups e (ztake 16 (lc_data c)) F = Ok (data, hb) /\ cfix_imports e data hb = Ok it /\ mach_libraries f = Ok libs /\ I = IFixups libs it) \/
   (Forall (fun c => ~ has_number [0x80000034] c) l /\ exists c bind weak lazy libs, last_with (has_number [0x22; 0x80000022]) l c /\
      di_data e (ztake 48 (lc_data c)) 1 F = Ok bind /\ di_data e (ztake 48 (lc_data c)) 2 F = Ok weak /\ di_data e (ztake 48 (lc_data c)) 3 F = Ok lazy /\ mach_libraries f = Ok libs /\ I = IDyld libs (dyld_start bind weak lazy)) \/
   (Forall (fun c => ~ has_number [0x80000034] c) l /\ Forall (fun c => ~ has_number [0x22; 0x80000022] c) l /\
      exists libs, (if Z.testbit (mh_fl h) 7 then mach_libraries f = Ok libs else libs = []) /\ I = ISymbols libs (Z.testbit (mh_fl h) 7) (mt_symbols (mf_symbols f)))).
Proof.
  intros P e. destruct (parsed_data _ _ _ _ _ P) as (Ed & _). pose proof (flags_parsed _ _ _ _ _ P) as Efl. fold e in Efl.
  set (r := (lastd [0x80000034] 16 l None, lastd [0x22; 0x80000022] 48 l None)).
  assert (FE : forall x, mf_cmds_fold f imports_step (None, None) = Ok x <-> complete is64 F h l /\ sized [0x80000034] 16 l /\ sized [0x22; 0x80000022] 48 l /\ x = r).
  { intros x. rewrite (fold_parsed _ _ _ _ _ _ _ _ P). change imports_step with (pick_step lc_chained_fixups lc_dyld_info).
    rewrite (pick_fold lc_chained_fixups lc_dyld_info [0x80000034] 16 [0x22; 0x80000022] 48 ltac:(lia) ltac:(lia)); [reflexivity| | |].
    - intros c. unfold lc_chained_fixups, zmem. cbn [existsb]. rewrite orb_false_r. rewrite Z.eqb_sym. reflexivity.
    - reflexivity.
    - intros x0. unfold zmem. cbn [existsb]. lia. }
  unfold mach_imports. cbn zeta. fold e. rewrite Ed, Efl. change 128 with (2 ^ 7). rewrite fl_has_bit by lia.
  destruct (mf_cmds_fold f imports_step (None, None)) as [x| |] eqn:Ef; cbn [bind].
  2, 3: split; [discriminate|]; intros (H1 & H2 & H3 & _); exfalso; pose proof (proj2 (FE r) (conj H1 (conj H2 (conj H3 eq_refl)))); discriminate.
  destruct (proj1 (FE x) eq_refl) as (H1 & H2 & H3 & ->). clear FE. subst r. cbv iota beta.
  pose proof (lastd_spec [0x80000034] 16 l) as L1. pose proof (lastd_spec [0x22; 0x80000022] 48 l) as L2.
  destruct (lastd [0x80000034] 16 l None) as [d1|].
  - destruct L1 as (c & Hc & ->). split.
    + intros Q. split; [exact H1|]. split; [exact H2|]. split; [exact H3|]. left. destruct (chained_fixups e (ztake 16 (lc_data c)) F) as [[data hb]| |] eqn:E1; cbn [bind] in Q; try discriminate.
      destruct (cfix_imports e data hb) as [it| |] eqn:E2; cbn [bind] in Q; try discriminate. destruct (mach_libraries f) as [libs| |] eqn:E3; cbn [bind] in Q; try discriminate. injection Q as <-.
      exists c, data, hb, it, libs. auto.
    + intros (_ & _ & _ & [(c' & data & hb & it & libs & Hc' & Q1 & Q2 & Q3 & ->)|[(N & _)|(N & _)]]).
      * rewrite (last_with_fun _ _ _ _ Hc Hc'). rewrite Q1. cbn [bind]. rewrite Q2. cbn [bind]. rewrite Q3. reflexivity.
      * exfalso. destruct Hc as (a & b & -> & Hc & _). apply Forall_app in N as (_ & N). inversion N; contradiction.
      * exfalso. destruct Hc as (a & b & -> & Hc & _). apply Forall_app in N as (_ & N). inversion N; contradiction.
  - destruct (lastd [0x22; 0x80000022] 48 l None) as [d2|].
    + destruct L2 as (c & Hc & ->). unfold dm_new. split.
      * intros Q. split; [exact H1|]. split; [exact H2|]. split; [exact H3|]. right. left. split; [exact L1|].
        destruct (di_data e (ztake 48 (lc_data c)) 1 F) as [b| |] eqn:E1; cbn [bind] in Q; try discriminate. destruct (di_data e (ztake 48 (lc_data c)) 2 F) as [w| |] eqn:E2; cbn [bind] in Q; try discriminate.
        destruct (di_data e (ztake 48 (lc_data c)) 3 F) as [z| |] eqn:E3; cbn [bind] in Q; try discriminate. destruct (mach_libraries f) as [libs| |] eqn:E4; cbn [bind] in Q; try discriminate. injection Q as <-.
        exists c, b, w, z, libs. repeat (split; [assumption|]). split; [reflexivity|]. reflexivity.
      * intros (_ & _ & _ & [(c' & _ & _ & _ & _ & (a & b & -> & Hc' & _) & _)|[(_ & c' & b & w & z & libs & Hc' & Q1 & Q2 & Q3 & Q4 & ->)|(_ & N & _)]]).
        -- exfalso. apply Forall_app in L1 as (_ & L1). inversion L1; contradiction.
        -- rewrite (last_with_fun _ _ _ _ Hc Hc'). rewrite Q1. cbn [bind]. rewrite Q2. cbn [bind]. rewrite Q3. cbn [bind]. rewrite Q4. reflexivity.
        -- exfalso. destruct Hc as (a & b & -> & Hc & _). apply Forall_app in N as (_ & N). inversion N; contradiction.
    + split.
      * intros Q. split; [exact H1|]. split; [exact H2|]. split; [exact H3|]. right. right. split; [exact L1|]. split; [exact L2|]. destruct (Z.testbit (mh_fl h) 7).
        -- destruct (mach_libraries f) as [libs| |]; cbn [bind] in Q; try discriminate. injection Q as <-. eauto.
        -- cbn [bind] in Q. injection Q as <-. eauto.
      * intros (_ & _ & _ & [(c' & _ & _ & _ & _ & (a & b & -> & Hc' & _) & _)|[(_ & c' & _ & _ & _ & _ & (a & b & -> & Hc' & _) & _)|(_ & _ & libs & Q & ->)]]).
        -- exfalso. apply Forall_app in L1 as (_ & L1). inversion L1; contradiction.
        -- exfalso. apply Forall_app in L2 as (_ & L2). inversion L2; contradiction.
        -- destruct (Z.testbit (mh_fl h) 7); rewrite Q; reflexivity.
Qed.
Print Assumptions C88_imports.
(** The exports are those of the last command for an exports trie, or else of the trie of the last one for bind operations, or else of the symbol table *)
Theorem C88_exports is64 F f h l X : parsed is64 F f h l -> let e := mf_endian f in
  mach_exports f = Ok X <->
  complete is64 F h l /\ sized [0x80000033] 16 l /\ sized [0x22; 0x80000022] 48 l /\
  ((exists c D, last_with (has_number [0x80000033]) l c /\ rr_read_bytes_at F (fld e 8 4 (lc_data c)) (fld e 12 4 (lc_data c)) = Ok D /\ X = XTrie (image_base f) D) \/
   (Forall (fun c => ~ has_number [0x80000033] c) l /\ exists c D, last_with (has_number [0x22; 0x80000022]) l c /\ di_data e (ztake 48 (lc_data c)) 4 F = Ok D /\ X = XTrie (image_base f) D) \/
   (Forall (fun c => ~ has_number [0x80000033] c) l /\ Forall (fun c => ~ has_number [0x22; 0x80000022] c) l /\ X = XSymbols (mt_symbols (mf_symbols f)))).
Proof.
  intros P e. destruct (parsed_data _ _ _ _ _ P) as (Ed & _). pose proof (commands_parsed _ _ _ _ _ P) as CK.
  set (r := (lastd [0x80000033] 16 l None, lastd [0x22; 0x80000022] 48 l None)).
  assert (FE : forall x, mf_cmds_fold f exports_step (None, None) = Ok x <-> complete is64 F h l /\ sized [0x80000033] 16 l /\ sized [0x22; 0x80000022] 48 l /\ x = r).
  { intros x. rewrite (fold_parsed _ _ _ _ _ _ _ _ P). change exports_step with (pick_step lc_exports_trie lc_dyld_info).
    rewrite (pick_fold lc_exports_trie lc_dyld_info [0x80000033] 16 [0x22; 0x80000022] 48 ltac:(lia) ltac:(lia)); [reflexivity| | |].
    - intros c. unfold lc_exports_trie, zmem. cbn [existsb]. rewrite orb_false_r. rewrite Z.eqb_sym. reflexivity.
    - reflexivity.
    - intros x0. unfold zmem. cbn [existsb]. lia. }
  unfold mach_exports. cbn zeta. fold e. rewrite Ed.
  destruct (mf_cmds_fold f exports_step (None, None)) as [x| |] eqn:Ef; cbn [bind].
  2, 3: split; [discriminate|]; intros (H1 & H2 & H3 & _); exfalso; pose proof (proj2 (FE r) (conj H1 (conj H2 (conj H3 eq_refl)))); discriminate.
  destruct (proj1 (FE x) eq_refl) as (H1 & H2 & H3 & ->). clear FE. subst r. cbv iota beta.
  pose proof (lastd_spec [0x80000033] 16 l) as L1. pose proof (lastd_spec [0x22; 0x80000022] 48 l) as L2.
  destruct (lastd [0x80000033] 16 l None) as [d1|].
  - destruct L1 as (c & Hc & ->).
    assert (V : fld e 0 4 (ztake 16 (lc_data c)) = 0x80000033 /\ fld e 8 4 (ztake 16 (lc_data c)) = fld e 8 4 (lc_data c) /\ fld e 12 4 (ztake 16 (lc_data c)) = fld e 12 4 (lc_data c)).
    { destruct Hc as (a & b & El & Hc & _). assert (Ic : In c l) by (rewrite El; apply in_or_app; right; left; reflexivity).
      pose proof (proj1 (Forall_forall _ _) H2 c Ic Hc) as Sz. pose proof (proj1 (Forall_forall _ _) CK c Ic) as Kc. destruct Kc as (_ & body & Eb & Hu & _).
      assert (T : forall o, 0 <= o -> o + 4 <= 16 -> fld e o 4 (ztake 16 (lc_data c)) = fld e o 4 (lc_data c)).
      { intros o Ho Ho'. unfold fld. f_equal. rewrite <- (ztake_zdrop 16 (lc_data c)) at 2. symmetry. unfold zslice. rewrite zdrop_app_le by (rewrite zlen_ztake by lia; lia). rewrite ztake_app_le; [reflexivity|].
        rewrite zlen_zdrop by (rewrite zlen_ztake by lia; lia). rewrite zlen_ztake by lia. lia. }
      split; [|split; apply T; lia]. rewrite T by lia. rewrite Eb. rewrite Pod_proofs.fld_hd; [|reflexivity|exact Hu]. destruct Hc as [->|[]]. reflexivity. }
    destruct V as (V0 & V8 & V12). rewrite V0, V8, V12. cbn [negb Z.eqb Pos.eqb]. split.
    + intros Q. split; [exact H1|]. split; [exact H2|]. split; [exact H3|]. left. destruct (rr_read_bytes_at F _ _) as [D| |] eqn:E1; cbn [bind] in Q; try discriminate. injection Q as <-. exists c, D. auto.
    + intros (_ & _ & _ & [(c' & D & Hc' & Q1 & ->)|[(N & _)|(N & _)]]).
      * rewrite (last_with_fun _ _ _ _ Hc Hc'). rewrite Q1. reflexivity.
      * exfalso. destruct Hc as (a & b & -> & Hc & _). apply Forall_app in N as (_ & N). inversion N; contradiction.
      * exfalso. destruct Hc as (a & b & -> & Hc & _). apply Forall_app in N as (_ & N). inversion N; contradiction.
  - destruct (lastd [0x22; 0x80000022] 48 l None) as [d2|].
    + destruct L2 as (c & Hc & ->). split.
      * intros Q. split; [exact H1|]. split; [exact H2|]. split; [exact H3|]. right. left. split; [exact L1|].
        destruct (di_data e (ztake 48 (lc_data c)) 4 F) as [D| |] eqn:E1; cbn [bind] in Q; try discriminate. injection Q as <-. exists c, D. auto.
      * intros (_ & _ & _ & [(c' & _ & (a & b & -> & Hc' & _) & _)|[(_ & c' & D & Hc' & Q1 & ->)|(_ & N & _)]]).
        -- exfalso. apply Forall_app in L1 as (_ & L1). inversion L1; contradiction.
        -- rewrite (last_with_fun _ _ _ _ Hc Hc'). rewrite Q1. reflexivity.
        -- exfalso. destruct Hc as (a & b & -> & Hc & _). apply Forall_app in N as (_ & N). inversion N; contradiction.
    + split.
      * intros [= <-]. split; [exact H1|]. split; [exact H2|]. split; [exact H3|]. right. right. auto.
      * intros (_ & _ & _ & [(c' & _ & (a & b & -> & Hc' & _) & _)|[(_ & c' & _ & (a & b & -> & Hc' & _) & _)|(_ & _ & ->)]]).
        -- exfalso. apply Forall_app in L1 as (_ & L1). inversion L1; contradiction.
        -- exfalso. apply Forall_app in L2 as (_ & L2). inversion L2; contradiction.
        -- reflexivity.
Qed.
Print Assumptions C88_exports.

(** * Examples *)
(** Two libraries, of which the second has flags; a section; four symbols: an undefined one of library 2, a function, an absolute and an indirect one *)
Definition ex_h : mhdr := {| mh_cpu := 16777228; mh_sub := 0; mh_file := 6; mh_n := 4; mh_sz := 240; mh_fl := 0x80 |}.
Definition ex_lib1 : bytes := write_u Little 4 0xc ++ write_u Little 4 32 ++ write_u Little 4 24 ++ write_u Little 4 0 ++ write_u Little 4 5 ++ write_u Little 4 6 ++ str "libA" ++ zeros 4.
Definition ex_lib2 : bytes := write_u Little 4 0x80000018 ++ write_u Little 4 32 ++ write_u Little 4 28 ++ write_u Little 4 0x1a741800 ++ write_u Little 4 7 ++ write_u Little 4 8 ++ write_u Little 4 1 ++ str "B" ++ zeros 3.
Definition ex_g : mseg := {| g_name := str "__TEXT" ++ zeros 10; g_vmaddr := 0x1000; g_vmsize := 4; g_fileoff := 272; g_filesize := 4; g_maxprot := 7; g_initprot := 7; g_nsects := 1; g_flags := 0 |}.
Definition ex_s : msec := {| x_sectname := str "__text" ++ zeros 10; x_segname := str "__TEXT" ++ zeros 10; x_addr := 0x1000; x_size := 4; x_offset := 272; x_align := 2; x_reloff := 0; x_nreloc := 0; x_flags := 0; x_reserved1 := 0; x_reserved2 := 0; x_reserved3 := 0 |}.
Definition ex_syms : list nlist :=
  [{| n_strx := 1; n_type := 1; n_sect := 0; n_desc := 0x240; n_value := 0 |}; {| n_strx := 4; n_type := 0xf; n_sect := 1; n_desc := 0x80; n_value := 0x1000 |};
   {| n_strx := 7; n_type := 3; n_sect := 0; n_desc := 0; n_value := 99 |}; {| n_strx := 10; n_type := 0xb; n_sect := 0; n_desc := 0; n_value := 1 |}; {| n_strx := 4; n_type := 0xe; n_sect := 1; n_desc := 0; n_value := 0x1002 |}].
Definition ex_strs : bytes := [0] ++ str "_f" ++ [0] ++ str "_g" ++ [0] ++ str "_a" ++ [0] ++ str "_i" ++ [0].
Definition ex_symtab (off : Z) : bytes := write_u Little 4 2 ++ write_u Little 4 24 ++ write_u Little 4 off ++ write_u Little 4 5 ++ write_u Little 4 (off + 80) ++ write_u Little 4 (zlen ex_strs).
Definition ex_F : bytes := Eval vm_compute in
  mach_hdr true Little ex_h (zeros 4) ++ ex_lib1 ++ ex_lib2 ++ mach_seg true Little 152 ex_g ++ mach_sec true Little ex_s ++ ex_symtab 276 ++ [1; 2; 3; 4] ++ concat (map (mach_nlist true Little) ex_syms) ++ ex_strs.
Definition parse_or F : mfile := match mach_parse true F with Ok f => f | _ => {| mf_64 := true; mf_endian := Little; mf_header := []; mf_segments := []; mf_sections := []; mf_symbols := msymtab_empty; mf_data := [] |} end.
Definition ex_f : mfile := Eval vm_compute in parse_or ex_F.
Lemma ex_F_ok : file_ok ex_F. Proof. split; [apply bytes_ok_forallb; vm_compute; reflexivity|vm_compute; reflexivity]. Qed.
Example C84_ex_hyps : exists h l, parsed true ex_F ex_f h l. Proof. apply C84_parsed; [exact ex_F_ok|vm_compute; reflexivity]. Qed.
Example C84_ex : mach_libraries ex_f = Ok [[]; str "libA"; str "B"]. Proof. vm_compute. reflexivity. Qed.
Definition ex_pull {S A} (next : S -> out (option A) * S) (m : out S) : list (option A) :=
  match m with
  | Ok st => let fix go (n : nat) st := match n with O => [] | Datatypes.S n => match next st with (Ok (Some x), st) => Some x :: go n st | (Ok None, _) => [] | (_, st) => None :: go n st end end in go 20%nat st
  | _ => []
  end.
Example C84_ex_libraries : ex_pull (lib_next Little) (import_libraries ex_f) =
  [Some {| lb_name := str "libA"; lb_ordinal := 1; lb_cmd := 0xc; lb_current := 5; lb_compat := 6; lb_use := None |};
   Some {| lb_name := str "B"; lb_ordinal := 2; lb_cmd := 0x80000018; lb_current := 7; lb_compat := 8; lb_use := Some 1 |}].
Proof. vm_compute. reflexivity. Qed.
Example C85_ex : ex_pull (mimports_next ex_f) (mach_imports ex_f) = [Some {| im_library := str "B"; im_name := str "_f"; im_weak := true; im_flags := MFSym 1 0x240 |}] /\
  ex_pull (sym_export_next ex_f) (Ok (mt_symbols (mf_symbols ex_f))) =
  [Some {| xp_name := str "_g"; xp_target := TAAddress 0x1000; xp_weak := true; xp_flags := Some (0xf, 0x80) |};
   Some {| xp_name := str "_a"; xp_target := TAAbsolute 99; xp_weak := false; xp_flags := Some (3, 0) |};
   Some {| xp_name := str "_i"; xp_target := TAReexport [] (str "_f"); xp_weak := false; xp_flags := Some (0xb, 0) |}].
Proof. vm_compute. split; reflexivity. Qed.
(** an undefined symbol is an export that cannot be read if it has no name *)
Theorem C85_unnamed_refuted : exists f n, type_bits n = 0 /\ ex_pull (sym_export_next f) (Ok [n]) = [None].
Proof. exists ex_f, {| n_strx := 1000; n_type := 1; n_sect := 0; n_desc := 0; n_value := 0 |}. vm_compute. split; reflexivity. Qed.
(** two imports in the first format; the second has dylib 0 *)
Definition ex_fix : bytes := write_u Little 4 (1 + 2 ^ 8 + 1 * 2 ^ 9) ++ write_u Little 4 (0 + 4 * 2 ^ 9).
Definition ex_fix_it : ciit := {| ci_imports := ex_fix; ci_symbols := [0] ++ str "_x" ++ [0] ++ str "_y" ++ [0]; ci_count := 2; ci_format := 1 |}.
Example C86_ex : ex_pull (fix_import_next Little [[]; str "libA"]) (Ok ex_fix_it) = [Some {| im_library := str "libA"; im_name := str "_x"; im_weak := true; im_flags := MFBind 1 1 |}] /\ bytes_ok ex_fix.
Proof. split; [vm_compute; reflexivity|apply bytes_ok_forallb; vm_compute; reflexivity]. Qed.
(** bind: library 1, "_x" (weak) bound twice, "_y" bound in the flat name space, then the end; no weak binds; lazy: "_z" of library 9, which does not exist *)
Definition ex_bind : bytes := [0x11; 0x41] ++ str "_x" ++ [0; 0x90; 0x90; 0x3e; 0x40] ++ str "_y" ++ [0; 0x90; 0; 0x90].
Definition ex_lazy : bytes := [0x19; 0x40] ++ str "_z" ++ [0; 0x90; 0].
Example C87_ex : ex_pull (dm_next [[]; str "libA"]) (Ok (dyld_start ex_bind [] ex_lazy)) =
  [Some {| im_library := str "libA"; im_name := str "_x"; im_weak := true; im_flags := MFBind 1 1 |}; Some {| im_library := []; im_name := str "_y"; im_weak := false; im_flags := MFBind (-2) 0 |}; None] /\
  bytes_ok ex_bind /\ bytes_ok ex_lazy.
Proof. split; [vm_compute; reflexivity|]. split; apply bytes_ok_forallb; vm_compute; reflexivity. Qed.
(** A bind without a symbol in its stream is ignored, but an error if the stream before ended with a symbol that was not bound *)
Theorem C87_pending_refuted : ex_pull (dm_next []) (Ok (dyld_start [] [0x90] [])) = [] /\ ex_pull (dm_next []) (Ok (dyld_start ([0x40] ++ str "_x" ++ [0]) [0x90] [])) = [None].
Proof. vm_compute. split; reflexivity. Qed.
(** a trie with the regular symbol "_a" at 0x20, and the image base of the example *)
Definition ex_trie : bytes := [0; 1] ++ str "_a" ++ [0; 6; 2; 0; 0x20; 0].
Example C88_ex : ex_pull (trie_export_next ex_f ex_trie (image_base ex_f)) (Ok node_new) = [Some {| xp_name := str "_a"; xp_target := TAAddress 0x1020; xp_weak := false; xp_flags := None |}].
Proof. vm_compute. reflexivity. Qed.
Example C88_ex_sources : mach_exports ex_f = Ok (XSymbols ex_syms) /\ mach_imports ex_f = Ok (ISymbols [[]; str "libA"; str "B"] true ex_syms).
Proof. vm_compute. split; reflexivity. Qed.
