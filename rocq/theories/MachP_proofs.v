(** Proofs about the Mach-O reader: the whole file. *)
From Verif Require Import Base Core_proofs Util_proofs Pod_proofs File_proofs Hash_proofs Rel_proofs Ar_proofs Trie_proofs Coff_spec CoffR_proofs CoffI_proofs Elf_proofs.
From Verif Require Import Mach_spec Mach_proofs MachF_proofs.
From Verif Require CoffW_proofs.

Lemma Forall2_imp {A B} (P Q : A -> B -> Prop) l l' : (forall a b, P a b -> Q a b) -> Forall2 P l l' -> Forall2 Q l l'.
Proof. intros H. induction 1; constructor; auto. Qed.
Section File.
Context (is64 : bool) (e : endian) (hb F : bytes) (HB : bytes_ok F) (HF : zlen F < 2 ^ 63).
Local Notation h := (mhdr_of e hb).
(** the loop, as a fold over the commands that were read *)
Definition one_command (c : lcmd) (st : list mseg * list msint * msymtab) : out (list mseg * list msint * msymtab) :=
  let '(segs, secs, syms) := st in
  o <- seg_from_command is64 e c ;;
  match o with
  | Some (g, sd) => l <- mach_parse_sections is64 e hb g sd ;; Ok (segs ++ [g], secs ++ l, syms)
  | None => y <- lc_symtab c ;; match y with Some b => t <- symtab_symbols is64 e b F ;; Ok (segs, secs, t) | None => Ok (segs, secs, syms) end
  end.
Fixpoint all_commands (l : list lcmd) (st : list mseg * list msint * msymtab) : out (list mseg * list msint * msymtab) :=
  match l with [] => Ok st | c :: l => st <- one_command c st ;; all_commands l st end.
Lemma commands_fold it l err it' : runs (lc_next e) it l err it' -> forall fuel segs secs syms, (length l < fuel)%nat ->
  mach_commands fuel is64 e hb F it segs secs syms = all_commands l (segs, secs, syms).
Proof.
  induction 1 as [it it' E|it it' E|it it1 it' c l err E _ IH]; intros fuel segs secs syms Hf; (destruct fuel as [|fuel]; [cbn in Hf; lia|]); cbn [mach_commands]; rewrite E; [reflexivity|reflexivity|].
  cbn [all_commands]. unfold one_command. cbn [length] in Hf.
  destruct (seg_from_command is64 e c) as [[(g, sd)|]| |]; cbn [bind]; try reflexivity.
  - destruct (mach_parse_sections is64 e hb g sd); cbn [bind]; try reflexivity. apply IH. lia.
  - destruct (lc_symtab c) as [[b|]| |]; cbn [bind]; try reflexivity; [|apply IH; lia].
    destruct (symtab_symbols is64 e b F); cbn [bind]; try reflexivity. apply IH. lia.
Qed.
Definition cmd_ok (c : lcmd) : Prop := bytes_ok (lc_data c) /\ command e (lc_data c) (lc_cmd c).
Lemma commands_ok off l D rest : commands e off l D rest -> bytes_ok D -> Forall cmd_ok l.
Proof.
  induction 1 as [|off c l D rest C _ _ IH]; intros B; constructor.
  - split; [|exact C]. apply bytes_ok_app in B. apply B.
  - apply IH. apply bytes_ok_app in B. apply B.
Qed.
Definition group_of (c : lcmd) (x : mseg * list msint) : Prop := exists secs, segment_of is64 e c (fst x) secs /\ segment_sections h (fst x) secs (snd x).
Lemma ro_eq g : (if mh_filetype e hb =? 1 then None else Some (negb (fl_has (g_initprot g) 2) || fl_has (g_flags g) 16)) = ro_of h g.
Proof. reflexivity. Qed.
Lemma group_iff c g xs : cmd_ok c -> is_seg is64 c = true ->
  (exists sd, seg_from_command is64 e c = Ok (Some (g, sd)) /\ mach_parse_sections is64 e hb g sd = Ok xs) <-> group_of c (g, xs).
Proof.
  intros (B & C) I. unfold mach_parse_sections. rewrite ro_eq. unfold group_of, segment_sections. cbn [fst snd]. cbv zeta. split.
  - intros (sd & E1 & E2). destruct (seg_sections is64 e g sd) as [secs| |] eqn:E3; cbn [bind] in E2; try discriminate.
    destruct (seg_section_offsets g secs) as [r| |] eqn:E4; cbn [bind] in E2; try discriminate. injection E2 as <-.
    assert (S : segment_of is64 e c g secs) by (apply segment_iff; eauto). exists secs. split; [exact S|].
    destruct S as (Hg & Fo & _).
    assert (Hr : map fst r = secs).
    { clear -E4 Fo. unfold seg_section_offsets in E4. set (a := 4294967295 <? _) in E4. set (fin := wrap_u 64 _) in E4. clearbody a fin. set (prev := g_fileoff g) in E4. clearbody prev. clear Fo.
      revert prev r E4. induction secs as [|s secs IH]; intros prev r E4; cbn [sec_offsets] in E4; [injection E4 as <-; reflexivity|].
      destruct (if a then ms_file_size s else None) as [n|].
      - cbv zeta in E4. destruct (fin <? _) in E4; [discriminate|]. match type of E4 with (x <- ?m ;; _) = _ => destruct m as [r'| |] eqn:E5; cbn [bind] in E4; try discriminate end.
        injection E4 as <-. cbn [map fst]. f_equal. eapply IH, E5.
      - match type of E4 with (x <- ?m ;; _) = _ => destruct m as [r'| |] eqn:E5; cbn [bind] in E4; try discriminate end. injection E4 as <-. cbn [map fst]. f_equal. eapply IH, E5. }
    split; [|split].
    + rewrite map_map. rewrite <- Hr. apply map_ext. intros [s o]. reflexivity.
    + apply (seg_offsets_iff is64); [assumption|assumption|]. exists r. split; [exact E4|]. split; [exact Hr|]. rewrite map_map. apply map_ext. intros [s o]. reflexivity.
    + apply Forall_map. apply Forall_forall. intros [s o] _. cbn [xi_sec xi_kind]. apply kind_iff. reflexivity.
  - intros (secs & S & E1 & E2 & E3). apply segment_iff in S as S'; [|assumption..]. destruct S' as (sd & Q1 & Q2). exists sd. split; [exact Q1|]. rewrite Q2. cbn [bind].
    destruct S as (Hg & Fo & _). apply (seg_offsets_iff is64) in E2 as (r & E4 & R1 & R2); [|assumption..]. rewrite E4. cbn [bind]. f_equal.
    clear -E1 R1 R2 E3. rewrite <- R1 in E1. clear R1 secs. revert xs E1 R2 E3. induction r as [|(s, o) r IH]; intros [|x xs] E1 R2 E3; try discriminate; [reflexivity|].
    cbn [map fst snd] in *. inversion E3; subst. f_equal; [|apply IH; congruence || assumption]. destruct x as [k s' o']. cbn [xi_sec xi_offset xi_kind] in *.
    assert (s' = s) by congruence. assert (o' = o) by congruence. subst. f_equal. apply kind_iff. assumption.
Qed.
Lemma struct_iff c n b : 0 <= n -> lc_struct c n = Ok b <-> zlen b = n /\ exists tl, lc_data c = b ++ tl.
Proof.
  intros Hn. unfold lc_struct. rewrite b_read_at_eq by lia. cbn [Z.add]. split.
  - destruct (Z.leb_spec n (zlen (lc_data c))); [|discriminate]. intros [= <-]. split; [apply zlen_zslice; lia|]. exists (zdrop n (lc_data c)). symmetry. apply ztake_zdrop.
  - intros (L & tl & ->). rewrite zlen_app. pose proof (zlen_nonneg tl). replace (n <=? zlen b + zlen tl) with true by lia. f_equal. apply (zslice_app_eq 0 n []); [reflexivity|lia].
Qed.
Lemma symtab_iff c t : cmd_ok c -> is_symtab c = true ->
  (exists b, lc_symtab c = Ok (Some b) /\ symtab_symbols is64 e b F = Ok t) <-> symtab_of is64 e F c t.
Proof.
  intros (B & C) I. unfold lc_symtab. change LC_SYMTAB with 2. unfold is_symtab in I. rewrite I.
  pose proof C as C'. destruct C' as (body & Eb & Hu & Hz).
  assert (W : forall o b tl, lc_data c = b ++ tl -> 0 <= o -> o + 4 <= zlen b -> fld e o 4 b = fld e o 4 (lc_data c)) by (intros o b tl Q Ho Hl; rewrite Q, fld_app_l by lia; reflexivity).
  split.
  - intros (b & E1 & E2). destruct (lc_struct c 24) as [b'| |] eqn:E3; cbn [bind] in E1; try discriminate. injection E1 as ->.
    apply struct_iff in E3 as (L & tl & Ed); [|lia]. assert (Bb : bytes_ok b) by (rewrite Ed in B; apply bytes_ok_app in B; apply B).
    assert (U : forall o, 0 <= o -> u32_ok (fld e o 4 b)) by (intros o Ho; apply (fld_bound e o 4); auto; lia).
    unfold symtab_symbols in E2. destruct (rr_read_slice_at F (fld e 8 4 b) (nlist_size is64) (fld e 12 4 b)) as [cs| |] eqn:E3; cbn [bind] in E2; try discriminate.
    unfold cadd in E2. pose proof (U 16 ltac:(lia)) as U16. pose proof (U 20 ltac:(lia)) as U20. unfold u32_ok in U16, U20.
    replace (fld e 16 4 b + fld e 20 4 b <? 2 ^ 64) with true in E2 by lia. cbn [of_opt bind] in E2. injection E2 as <-.
    assert (A : (l <- rr_read_slice_at F (fld e 8 4 b) (nlist_size is64) (fld e 12 4 b) ;; Ok (map (nlist_of is64 e) l)) = Ok (map (nlist_of is64 e) cs)) by (rewrite E3; reflexivity).
    apply (array_iff (nlist_of is64 e) (mach_nlist is64 e) (nlist_ok is64)) in A; [|assumption|lia|apply U; lia|destruct is64; reflexivity|apply U; lia|intros; apply nlist_of_dec; assumption|intros; apply nlist_of_enc; assumption].
    destruct A as (A1 & A2 & A3). exists (fld e 8 4 b), (fld e 16 4 b), (fld e 20 4 b), tl. cbn [mt_symbols mt_strings]. rewrite A1.
    split; [|repeat split; try (apply U; lia); assumption].
    assert (F0 : fld e 0 4 b = 2).
    { rewrite (W 0 b tl Ed) by lia. rewrite Eb. rewrite fld_hd; [lia|reflexivity|exact Hu]. }
    assert (F4 : fld e 4 4 b = zlen (lc_data c)).
    { rewrite (W 4 b tl Ed) by lia. rewrite Eb at 1. rewrite fld_skip by lia. apply fld_hd; [reflexivity|exact Hz]. }
    rewrite <- F0, <- F4. rewrite Ed at 1. rewrite !app_assoc. f_equal. rewrite <- !app_assoc. unfold fld. symmetry. pod_join. apply zslice_all. lia.
  - intros (so & sto & sts & tl & Ed & U1 & U2 & U3 & U4 & Fo & Hh & Es). unfold u32_ok in *.
    set (b := write_u e 4 2 ++ write_u e 4 (zlen (lc_data c)) ++ write_u e 4 so ++ write_u e 4 (zlen (mt_symbols t)) ++ write_u e 4 sto ++ write_u e 4 sts).
    exists b. split.
    + assert (E : lc_struct c 24 = Ok b).
      { apply struct_iff; [lia|]. split; [unfold b; rewrite !zlen_app, !zlen_write_u; reflexivity|]. exists tl. rewrite Ed at 1. unfold b. rewrite <- !app_assoc. reflexivity. }
      rewrite E. reflexivity.
    + unfold symtab_symbols.
      assert (F8 : fld e 8 4 b = so) by (unfold b; rewrite !fld_skip by lia; apply fld_hd; [reflexivity|assumption]).
      assert (F12 : fld e 12 4 b = zlen (mt_symbols t)) by (unfold b; rewrite !fld_skip by lia; apply fld_hd; [reflexivity|assumption]).
      assert (F16 : fld e 16 4 b = sto) by (unfold b; rewrite !fld_skip by lia; apply fld_hd; [reflexivity|assumption]).
      assert (F20 : fld e 20 4 b = sts) by (unfold b; rewrite !fld_skip by lia; apply fld_hd1; [reflexivity|assumption]).
      rewrite F8, F12, F16, F20. clear F8 F12 F16 F20.
      assert (A : (l <- rr_read_slice_at F so (nlist_size is64) (zlen (mt_symbols t)) ;; Ok (map (nlist_of is64 e) l)) = Ok (mt_symbols t)).
      { apply (array_iff (nlist_of is64 e) (mach_nlist is64 e) (nlist_ok is64)); [assumption|lia|lia|destruct is64; reflexivity|lia|intros; apply nlist_of_dec; assumption|intros; apply nlist_of_enc; assumption|].
        split; [reflexivity|]. split; assumption. }
      destruct (rr_read_slice_at F so (nlist_size is64) (zlen (mt_symbols t))) as [cs| |]; cbn [bind] in *; try discriminate. unfold cadd. replace (sto + sts <? 2 ^ 64) with true by lia. cbn [of_opt bind].
      injection A as ->. rewrite <- Es. destruct t. reflexivity.
Qed.
Lemma symtab_none c : is_symtab c = false -> lc_symtab c = Ok None.
Proof. intros I. unfold lc_symtab. change LC_SYMTAB with 2. unfold is_symtab in I. rewrite I. reflexivity. Qed.
Lemma seg_not_symtab c : is_seg is64 c = true -> is_symtab c = false.
Proof. unfold is_seg, is_symtab. destruct is64; lia. Qed.
Lemma last_snoc_step {A} (t : A) tabs d : last (t :: tabs) d = last tabs t.
Proof. destruct tabs as [|x tabs]; [reflexivity|]. change (last (t :: x :: tabs) d) with (last (x :: tabs) d). revert x. induction tabs as [|y tabs IH]; intros x; [reflexivity|]. change (last (y :: tabs) d = last (y :: tabs) t). apply IH. Qed.
Lemma fold_iff l : Forall cmd_ok l -> forall segs secs syms a b t,
  all_commands l (segs, secs, syms) = Ok (a, b, t) <->
  exists groups tabs, Forall2 group_of (filter (is_seg is64) l) groups /\ Forall2 (symtab_of is64 e F) (filter is_symtab l) tabs /\
    a = segs ++ map fst groups /\ b = secs ++ concat (map snd groups) /\ t = last tabs syms.
Proof.
  induction 1 as [|c l Hc _ IH]; intros segs secs syms a b t; cbn [all_commands].
  - split.
    + intros [= <- <- <-]. exists [], []. cbn. rewrite !app_nil_r. repeat split; constructor.
    + intros (groups & tabs & G & T & -> & -> & ->). inversion G. inversion T. cbn. rewrite !app_nil_r. reflexivity.
  - cbn [filter]. unfold one_command. destruct (is_seg is64 c) eqn:I.
    + rewrite (seg_not_symtab c I). split.
      * destruct (seg_from_command is64 e c) as [[(g, sd)|]| |] eqn:E1; cbn [bind]; try discriminate; [|exfalso; apply (proj1 (seg_some is64 e c I)); exact E1].
        destruct (mach_parse_sections is64 e hb g sd) as [xs| |] eqn:E2; cbn [bind]; try discriminate. intros E3.
        apply IH in E3 as (groups & tabs & G & T & -> & -> & ->). exists ((g, xs) :: groups), tabs. cbn [map fst snd concat]. rewrite <- !app_assoc. cbn [app].
        repeat split; [|exact T]. constructor; [|exact G]. apply group_iff; [assumption|assumption|eauto].
      * intros (groups & tabs & G & T & -> & -> & ->). inversion G as [|c' (g, xs) l' groups' Hg G' Ec El]. subst. apply group_iff in Hg as (sd & E1 & E2); [|assumption..].
        rewrite E1. cbn [bind]. rewrite E2. cbn [bind]. apply IH. exists groups', tabs. cbn [map fst snd concat]. rewrite <- !app_assoc. auto.
    + rewrite seg_none by exact I. cbn [bind]. destruct (is_symtab c) eqn:J.
      * split.
        -- destruct (lc_symtab c) as [[bb|]| |] eqn:E1; cbn [bind]; try discriminate.
           2: { exfalso. unfold lc_symtab in E1. change LC_SYMTAB with 2 in E1. unfold is_symtab in J. rewrite J in E1. destruct (lc_struct c 24); discriminate E1. }
           destruct (symtab_symbols is64 e bb F) as [tb| |] eqn:E2; cbn [bind]; try discriminate. intros E3.
           apply IH in E3 as (groups & tabs & G & T & -> & -> & ->). exists groups, (tb :: tabs). rewrite last_snoc_step. repeat split; [exact G|].
           constructor; [|exact T]. apply symtab_iff; [assumption|assumption|eauto].
        -- intros (groups & tabs & G & T & -> & -> & ->). inversion T as [|c' tb l' tabs' Ht T' Ec El]. subst. apply symtab_iff in Ht as (bb & E1 & E2); [|assumption..].
           rewrite E1. cbn [bind]. rewrite E2. cbn [bind]. apply IH. exists groups, tabs'. rewrite last_snoc_step. auto.
      * rewrite symtab_none by exact J. cbn [bind]. apply IH.
Qed.
Lemma one_np c st : one_command c st <> Panic.
Proof.
  destruct st as [[segs secs] syms]. unfold one_command. destruct (is_seg is64 c) eqn:I.
  - pose proof (proj2 (seg_some is64 e c I)). destruct (seg_from_command is64 e c) as [[(g, sd)|]| |] eqn:E0; cbn [bind]; try congruence.
    + unfold mach_parse_sections. pose proof (array_no_panic (msec_of is64 e) sd 0 (mach_sec_size is64) (g_nsects g)) as N. fold (seg_sections is64 e g sd) in N.
      destruct (seg_sections is64 e g sd) as [l| |]; cbn [bind]; try congruence. unfold seg_section_offsets.
      match goal with |- context [sec_offsets ?a ?b ?c l] => pose proof (sec_offsets_np a b l c) as N2; destruct (sec_offsets a b c l) end; cbn [bind]; congruence.
    + exfalso. apply (proj1 (seg_some is64 e c I)). exact E0.
  - rewrite seg_none by exact I. cbn [bind]. unfold lc_symtab. destruct (lc_cmd c =? LC_SYMTAB); cbn [bind]; [|discriminate].
    unfold lc_struct. rewrite b_read_at_eq by lia. destruct (0 + 24 <=? zlen (lc_data c)); cbn [bind]; [|discriminate].
    unfold symtab_symbols. match goal with |- context [rr_read_slice_at F ?o ?n ?k] => pose proof (array_no_panic (nlist_of is64 e) F o n k) as N; destruct (rr_read_slice_at F o n k) end; cbn [bind] in *; try congruence.
    unfold cadd. destruct (_ <? _); cbn [of_opt bind]; discriminate.
Qed.
Lemma all_np l : forall st, all_commands l st <> Panic.
Proof.
  induction l as [|c l IH]; intros st; cbn [all_commands]; [discriminate|]. pose proof (one_np c st). destruct (one_command c st); cbn [bind]; [apply IH|discriminate|congruence].
Qed.
End File.

Lemma hb_size is64 : table_size is64 = mach_header_size is64.
Proof. destruct is64; reflexivity. Qed.
Lemma readable_commands e n off D l c : readable e n off D l c -> zlen l <= n.
Proof. intros (rest & _ & H). destruct c; lia. Qed.
Lemma header_iff is64 F hb e : bytes_ok F -> zlen F < 2 ^ 63 ->
  mach_header_parse is64 F 0 = Ok (hb, e) <-> exists h r, mhdr_ok h /\ hb = mach_hdr is64 e h r /\ zlen hb = table_size is64 /\ holds F 0 hb.
Proof.
  intros B L. assert (Hs : 0 < mach_header_size is64) by (destruct is64; reflexivity). unfold mach_header_parse. rewrite rr_read_at_eq by lia. cbn [Z.add]. split.
  - destruct (Z.leb_spec (mach_header_size is64) (zlen F)); cbn [bind]; [|discriminate]. set (b := zslice 0 (mach_header_size is64) F).
    assert (Lb : zlen b = mach_header_size is64) by (apply zlen_zslice; lia). assert (Bb : bytes_ok b) by (apply bytes_ok_zslice; exact B).
    unfold mh_is_little, mh_is_big. intros E. assert (M : mh_magic b = magic is64 e /\ hb = b).
    { destruct (mh_magic b =? (if is64 then 4277009103 else 4277009102)) eqn:E1.
      - rewrite orb_true_r in E. injection E as <- <-. split; [destruct is64; cbn in *; lia|reflexivity].
      - rewrite orb_false_r in E. destruct (mh_magic b =? (if is64 then 3489328638 else 3472551422)) eqn:E2; [|discriminate]. injection E as <- <-. split; [destruct is64; cbn in *; lia|reflexivity]. }
    destruct M as (M & ->). destruct (hdr_dec is64 e b Lb Bb M) as (Ho & Eb). eexists _, _. split; [exact Ho|]. rewrite Eb. split; [reflexivity|]. rewrite hb_size. split; [exact Lb|].
    apply holds_zslice; lia.
  - intros (h & r & Ho & -> & Lb & Hh). pose proof (holds_bounds _ _ _ Hh) as Hb. pose proof (holds_slice _ _ _ Hh) as Hsl. rewrite Lb, hb_size in *.
    replace (mach_header_size is64 <=? zlen F) with true by lia. cbn [bind]. rewrite Hsl. destruct (hdr_enc is64 e h r Ho) as (_ & M). unfold mh_is_little, mh_is_big. rewrite M.
    destruct is64, e; reflexivity.
Qed.
Lemma load_commands_cases is64 e hb F : bytes_ok F -> bytes_ok hb -> zlen F < 2 ^ 63 -> table_size is64 <= zlen F ->
  (exists D, mach_load_commands is64 e hb F 0 = Ok (lc_at D (mh_ncmds e hb) (table_size is64)) /\ holds F (table_size is64) D /\ zlen D = mh_sizeofcmds e hb) \/
  (mach_load_commands is64 e hb F 0 = Err /\ mh_sizeofcmds e hb <> 0 /\ zlen F < table_size is64 + mh_sizeofcmds e hb).
Proof.
  intros B Bh L Ht. unfold mach_load_commands, padd. rewrite <- hb_size. assert (0 < table_size is64 <= 32) by (destruct is64; cbn; lia).
  replace (0 + table_size is64 <? 2 ^ 64) with true by lia. cbn [bind Z.add].
  assert (U : 0 <= mh_sizeofcmds e hb < 2 ^ 32) by (apply (fld_bound e 20 4); auto; lia).
  rewrite rr_read_bytes_at_eq by lia. destruct (Z.eqb_spec (mh_sizeofcmds e hb) 0) as [E0|E0]; cbn [bind].
  - left. exists []. split; [reflexivity|]. split; [apply holds_nil; lia|]. rewrite E0. reflexivity.
  - destruct (Z.leb_spec (table_size is64 + mh_sizeofcmds e hb) (zlen F)); cbn [bind].
    + left. eexists. split; [reflexivity|]. split; [apply holds_zslice; lia|apply zlen_zslice; lia].
    + right. repeat split; lia.
Qed.
Lemma holds_bytes F o b : bytes_ok F -> holds F o b -> bytes_ok b.
Proof. intros B (a & c & -> & _). apply bytes_ok_app in B as (_ & B). apply bytes_ok_app in B as (B & _). exact B. Qed.
Lemma holds_eq F o a b : holds F o a -> holds F o b -> zlen a = zlen b -> a = b.
Proof. intros Ha Hb E. apply holds_slice in Ha. apply holds_slice in Hb. rewrite <- Ha, <- Hb, E. reflexivity. Qed.
Lemma file_commands_iff is64 e F h r l : bytes_ok F -> zlen F < 2 ^ 63 -> mhdr_ok h -> holds F 0 (mach_hdr is64 e h r) -> zlen (mach_hdr is64 e h r) = table_size is64 ->
  file_commands is64 e F h l <->
  (exists it err it', mach_load_commands is64 e (mach_hdr is64 e h r) F 0 = Ok it /\ runs (lc_next e) it l err it' /\ zlen l <= li_ncmds it) \/
  (mach_load_commands is64 e (mach_hdr is64 e h r) F 0 = Err /\ l = []).
Proof.
  intros B L Ho Hh Hl. pose proof (holds_bytes _ _ _ B Hh) as Bh. pose proof (holds_bounds _ _ _ Hh) as Hb. rewrite Hl in Hb.
  destruct (hdr_enc is64 e h r Ho) as (Eh & _). set (hb := mach_hdr is64 e h r) in *.
  assert (En : mh_ncmds e hb = mh_n h) by (rewrite <- Eh; reflexivity). assert (Es : mh_sizeofcmds e hb = mh_sz h) by (rewrite <- Eh; reflexivity).
  assert (0 < table_size is64 <= 32) by (destruct is64; cbn; lia). destruct Ho as (_ & _ & _ & (Hn & Hn') & (Hz & Hz') & _).
  destruct (load_commands_cases is64 e hb F B Bh L ltac:(lia)) as [(D & E & HD & LD)|(E & N0 & NL)]; rewrite ?En, ?Es in *.
  - pose proof (holds_bytes _ _ _ B HD) as BD. rewrite E. split.
    + intros [(D' & c & HD' & LD' & R)|(_ & N0 & NL)].
      2: { pose proof (holds_bounds _ _ _ HD). lia. }
      left. assert (D' = D) by (eapply holds_eq; [exact HD'|exact HD|lia]). subst D'. pose proof (readable_commands _ _ _ _ _ _ R) as Rn.
      rewrite <- (negb_involutive c) in R. apply lc_iff in R as (s' & R); [|assumption|lia|lia|lia]. eexists _, _, s'. split; [reflexivity|]. split; [exact R|exact Rn].
    + intros [(it & err & it' & [= <-] & R & Rn)|(Q & _)]; [|discriminate]. left. exists D, (negb err). split; [exact HD|]. split; [exact LD|].
      apply lc_iff; [assumption|lia|lia|lia|eauto].
  - rewrite E. split.
    + intros [(D' & c & HD' & LD' & R)|(-> & _)]; [|auto]. exfalso. pose proof (holds_bounds _ _ _ HD'). lia.
    + intros [(it & err & it' & Q & _)|(_ & ->)]; [discriminate|]. right. auto.
Qed.
Lemma mach_iff is64 F f : file_ok F -> mach_parse is64 F = Ok f <-> mach_of is64 F f.
Proof.
  intros (B & L). unfold mach_parse, mach_of. split.
  - destruct (mach_header_parse is64 F 0) as [(hb, e)| |] eqn:E1; cbn [bind]; try discriminate. apply header_iff in E1 as (h & r & Ho & -> & Lh & Hh); [|assumption..].
    destruct (hdr_enc is64 e h r Ho) as (Eh & _). set (hb := mach_hdr is64 e h r) in *.
    pose proof (fun l => proj2 (file_commands_iff is64 e F h r l B L Ho Hh Lh)) as FC. fold hb in FC.
    assert (BB : forall l, file_commands is64 e F h l -> Forall (cmd_ok e) l).
    { intros l [(D & c & HD & _ & rest & C & _)|(-> & _)]; [|constructor]. eapply commands_ok; [exact C|]. eapply holds_bytes; eauto. }
    assert (G : forall segs secs syms l, file_commands is64 e F h l -> all_commands is64 e hb F l ([], [], msymtab_empty) = Ok (segs, secs, syms) ->
      Ok {| mf_64 := is64; mf_endian := e; mf_header := hb; mf_segments := segs; mf_sections := secs; mf_symbols := syms; mf_data := F |} = Ok f -> mach_of is64 F f).
    { intros segs secs syms l Hl Ea [= <-]. apply fold_iff in Ea as (groups & tabs & Gr & T & -> & -> & ->); [|assumption|assumption|apply BB; exact Hl].
      exists h, r, l, groups, tabs. cbn [mf_endian mf_64 mf_header mf_segments mf_sections mf_symbols mf_data]. fold hb.
      split; [exact Ho|]. split; [exact Lh|]. split; [exact Hh|]. split; [exact Hl|]. split; [|repeat split; exact T].
      eapply Forall2_imp; [|exact Gr]. intros c x (secs & S1 & S2). rewrite Eh in S2. eauto. }
    destruct (mach_load_commands is64 e hb F 0) as [it| |] eqn:E2; cbn [bind]; try discriminate.
    + assert (Hit : exists l err it', runs (lc_next e) it l err it' /\ zlen l <= li_ncmds it).
      { pose proof (holds_bytes _ _ _ B Hh) as Bh. pose proof (holds_bounds _ _ _ Hh) as Hb. rewrite Lh in Hb. assert (0 < table_size is64 <= 32) by (destruct is64; cbn; lia).
        destruct (load_commands_cases is64 e hb F B Bh L ltac:(lia)) as [(D & E & HD & LD)|(E & _)]; [|congruence]. rewrite E2 in E. injection E as ->.
        assert (0 <= mh_ncmds e hb < 2 ^ 32) by (apply (fld_bound e 16 4); auto; lia). assert (0 <= mh_sizeofcmds e hb < 2 ^ 32) by (apply (fld_bound e 20 4); auto; lia).
        pose proof (holds_bytes _ _ _ B HD) as BD. destruct (lc_total e D (mh_ncmds e hb) (table_size is64) BD ltac:(lia) ltac:(lia) ltac:(lia)) as (l & err & s' & R & _ & Ln). exists l, err, s'. split; [exact R|exact Ln]. }
      destruct Hit as (l & err & it' & R & Ln).
      rewrite (commands_fold is64 e hb F it l err it' R) by (unfold zlen in Ln; lia).
      destruct (all_commands is64 e hb F l ([], [], msymtab_empty)) as [[[segs secs] syms]| |] eqn:E3; cbn [bind]; try discriminate.
      intros Ef. eapply G; [|exact E3|exact Ef]. apply FC. left. eexists _, _, _. split; [reflexivity|]. split; [exact R|exact Ln].
    + intros Ef. eapply (G [] [] msymtab_empty []); [|reflexivity|exact Ef]. apply FC. right. auto.
  - intros (h & r & l & groups & tabs & Ho & Lh & Hh & FC & Gr & T & E64 & Eh & Esg & Esc & Esy & Ed).
    set (e := mf_endian f) in *. set (hb := mach_hdr is64 e h r) in *.
    assert (E1 : mach_header_parse is64 F 0 = Ok (hb, e)) by (apply header_iff; [exact B|exact L|]; exists h, r; split; [exact Ho|]; split; [reflexivity|]; split; [exact Lh|exact Hh]). rewrite E1. cbn [bind].
    assert (BB : Forall (cmd_ok e) l).
    { destruct FC as [(D & c & HD & _ & rest & C & _)|(-> & _)]; [|constructor]. eapply commands_ok; [exact C|]. eapply holds_bytes; eauto. }
    apply (file_commands_iff is64 e F h r l) in FC; [|assumption..]. fold hb in FC.
    assert (Ea : all_commands is64 e hb F l ([], [], msymtab_empty) = Ok (mf_segments f, mf_sections f, mf_symbols f)).
    { apply fold_iff; [assumption|assumption|exact BB|]. exists groups, tabs. split; [|repeat split; assumption].
      eapply Forall2_imp; [|exact Gr]. intros c x (secs & S1 & S2). exists secs. split; [exact S1|]. destruct (hdr_enc is64 e h r Ho) as (Eh' & _). unfold hb. rewrite Eh'. exact S2. }
    assert (Ef : Ok {| mf_64 := is64; mf_endian := e; mf_header := hb; mf_segments := mf_segments f; mf_sections := mf_sections f; mf_symbols := mf_symbols f; mf_data := F |} = Ok f)
      by (f_equal; rewrite <- E64, <- Eh, <- Ed; destruct f; reflexivity).
    destruct FC as [(it & err & it' & E2 & R & Ln)|(E2 & ->)]; rewrite E2.
    + rewrite (commands_fold is64 e hb F it l err it' R) by (unfold zlen in Ln; lia). rewrite Ea. cbn [bind]. exact Ef.
    + cbn [all_commands] in Ea. injection Ea as Q1 Q2 Q3. cbn [bind]. rewrite Q1, Q2, Q3. exact Ef.
Qed.

Lemma mach_np is64 F : file_ok F -> mach_parse is64 F <> Panic.
Proof.
  intros (B & L). unfold mach_parse. destruct (mach_header_parse is64 F 0) as [(hb, e)| |] eqn:E1; cbn [bind]; try discriminate.
  - apply header_iff in E1 as (h & r & Ho & Eh & Lh & Hh); [|assumption..].
    pose proof (holds_bytes _ _ _ B Hh) as Bh. pose proof (holds_bounds _ _ _ Hh) as Hb. rewrite Lh in Hb. assert (0 < table_size is64 <= 32) by (destruct is64; cbn; lia).
    destruct (load_commands_cases is64 e hb F B Bh L ltac:(lia)) as [(D & E & HD & LD)|(E & _)]; rewrite E; cbn [bind]; [|discriminate].
    assert (0 <= mh_ncmds e hb < 2 ^ 32) by (apply (fld_bound e 16 4); auto; lia). assert (0 <= mh_sizeofcmds e hb < 2 ^ 32) by (apply (fld_bound e 20 4); auto; lia).
    pose proof (holds_bytes _ _ _ B HD) as BD. destruct (lc_total e D (mh_ncmds e hb) (table_size is64) BD ltac:(lia) ltac:(lia) ltac:(lia)) as (l & err & s' & R & _ & Ln).
    rewrite (commands_fold is64 e hb F _ l err s' R) by (cbn [li_ncmds lc_at]; unfold zlen in Ln; lia).
    pose proof (all_np is64 e hb F l ([], [], msymtab_empty)). destruct (all_commands is64 e hb F l ([], [], msymtab_empty)) as [[[? ?] ?]| |]; cbn [bind]; congruence.
  - exfalso. assert (0 < mach_header_size is64) by (destruct is64; reflexivity). unfold mach_header_parse in E1. rewrite rr_read_at_eq in E1 by lia. destruct (_ <=? _); cbn [bind] in E1; [|discriminate]. destruct (_ || _); discriminate.
Qed.
