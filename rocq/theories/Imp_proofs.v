(** Proofs about the libraries, and the imports and exports in symbol tables and chained fixups. *)
From Verif Require Import Base Core_proofs Util_proofs Pod_proofs File_proofs Hash_proofs Rel_proofs Ar_proofs Trie_proofs Coff_spec CoffR_proofs CoffI_proofs Elf_proofs.
From Verif Require Import Mach_spec Mach_proofs MachF_proofs MachP_proofs MachQ_proofs MachM_proofs.
From Verif Require PeI_proofs ArSym_proofs.
From Verif Require Import Imp_spec.

(** * Iterators *)
Lemma results_fun {S A} (next : S -> out (option A) * S) st L : results next st L -> forall L', results next st L' -> L = L'.
Proof.
  induction 1 as [st st1 E|st x st1 l E _ IH|st st1 l E _ IH]; intros L' R; inversion R as [? ? E' |? ? ? ? E' R'|? ? ? E' R']; subst; rewrite E in E'; try discriminate E'.
  - reflexivity.
  - injection E' as <- <-. f_equal. apply IH. exact R'.
  - injection E' as <-. f_equal. apply IH. exact R'.
Qed.
Lemma steps_results {S A} (next : S -> out (option A) * S) st l st1 L : steps next st l st1 -> results next st1 L -> results next st (l ++ L).
Proof. induction 1; intros R; cbn [app]; [exact R|eapply res_ok; eauto|eapply res_err; eauto]. Qed.
Lemma steps_app {S A} (next : S -> out (option A) * S) st l st1 L st2 : steps next st l st1 -> steps next st1 L st2 -> steps next st (l ++ L) st2.
Proof. induction 1; intros R; cbn [app]; [exact R|eapply st_ok; eauto|eapply st_err; eauto]. Qed.
Lemma picks_fun {A B} (skip : A -> Prop) (R : A -> B -> Prop) l : (forall x y y', In x l -> R x y -> R x y' -> y = y') -> forall L L', picks skip R l L -> picks skip R l L' -> L = L'.
Proof.
  induction l as [|x l IH]; intros F L L' P P'; inversion P; inversion P'; subst; try contradiction; try reflexivity; try (f_equal); try (apply IH; auto; intros; eapply F; eauto; right; auto);
    try (exfalso; firstorder; fail); try (eapply f_equal; eapply F; eauto; left; reflexivity).
Qed.
(** [first_from] picks *)
Lemma first_from_picks {A B} (f : A -> option (out B)) (skip : A -> Prop) (R : A -> B -> Prop) l :
  (forall x, In x l -> (f x = None <-> skip x) /\ f x <> Some Panic /\ forall y, f x = Some (Ok y) <-> ~ skip x /\ R x y) ->
  exists L, results (first_from f) l L /\ picks skip R l L.
Proof.
  induction l as [|x l IH]; intros H; [exists []; split; [eapply res_end; reflexivity|constructor]|].
  destruct IH as (L & RL & PL); [intros y Hy; apply H; right; exact Hy|]. destruct (H x (or_introl eq_refl)) as (H1 & H2 & H3).
  destruct (f x) as [[y| |]|] eqn:E; [| |congruence|].
  - exists (Some y :: L). destruct (proj1 (H3 y) eq_refl) as (N & Hy). split; [|apply pk_take; assumption]. eapply res_ok; [|exact RL]. cbn [first_from]. rewrite E. reflexivity.
  - exists (None :: L). assert (N : ~ skip x) by (intros N; apply H1 in N; discriminate N). split.
    + eapply res_err; [|exact RL]. cbn [first_from]. rewrite E. reflexivity.
    + apply pk_bad; [exact N| |exact PL]. intros y Hy. pose proof (proj2 (H3 y) (conj N Hy)). discriminate.
  - exists L. split; [|apply pk_skip; [apply H1; reflexivity|exact PL]].
    inversion RL as [? ? E' |? ? ? ? E' R'|? ? ? E' R']; subst.
    + eapply res_end. cbn [first_from]. rewrite E. exact E'.
    + eapply res_ok; [|exact R']. cbn [first_from]. rewrite E. exact E'.
    + eapply res_err; [|exact R']. cbn [first_from]. rewrite E. exact E'.
Qed.

(** * Commands *)
Lemma complete_b is64 F h l : complete is64 F h l <-> Z.eqb (zlen l) (mh_n h) && ((mh_sz h =? 0) || (table_size is64 + mh_sz h <=? zlen F)) = true.
Proof. unfold complete. lia. Qed.
Lemma load_ok is64 F f h r l : file_ok F -> mach_parse is64 F = Ok f -> mhdr_ok h -> mf_header f = mach_hdr is64 (mf_endian f) h r -> file_commands is64 (mf_endian f) F h l ->
  Forall (cmd_ok (mf_endian f)) l /\ zlen l < 2 ^ 32 /\ mf_data f = F /\
  let m := mach_load_commands (mf_64 f) (mf_endian f) (mf_header f) (mf_data f) 0 in
  (exists it err it', m = Ok it /\ runs (lc_next (mf_endian f)) it l err it' /\ lc_next (mf_endian f) it' = (Ok None, it') /\ zlen l <= li_ncmds it /\ li_ncmds it < 2 ^ 32 /\ (err = false <-> complete is64 F h l)) \/
  (m = Err /\ l = [] /\ ~ complete is64 F h l).
Proof.
  intros HF EP Ho Eh FC. apply mach_iff in EP; [|exact HF]. destruct EP as (h' & r' & l' & groups & tabs & Ho' & Lh & Hh & _ & _ & _ & E64 & Eh' & _ & _ & _ & Ed).
  destruct HF as (B & L). rewrite <- Eh', Eh in Lh, Hh.
  assert (BB : Forall (cmd_ok (mf_endian f)) l).
  { destruct FC as [(D & c & HD & _ & rest & C & _)|(-> & _)]; [|constructor]. eapply commands_ok; [exact C|]. eapply holds_bytes; eauto. }
  split; [exact BB|]. set (e := mf_endian f) in *.
  destruct (hdr_enc is64 e h r Ho) as (Em & _).
  assert (En : mh_ncmds e (mach_hdr is64 e h r) = mh_n h) by (rewrite <- Em at 2; reflexivity). assert (Es : mh_sizeofcmds e (mach_hdr is64 e h r) = mh_sz h) by (rewrite <- Em at 2; reflexivity).
  pose proof (holds_bytes _ _ _ B Hh) as Bh. pose proof (holds_bounds _ _ _ Hh) as Hb. rewrite Lh in Hb. assert (0 < table_size is64 <= 32) by (destruct is64; cbn; lia).
  pose proof (load_commands_cases is64 e _ F B Bh L ltac:(lia)) as LC. rewrite En, Es in LC.
  pose proof (proj1 (file_commands_iff is64 e F h r l B L Ho Hh Lh) FC) as FC'.
  destruct Ho as (_ & _ & _ & (Hn & Hn') & (Hz & Hz') & _).
  rewrite E64, Eh, Ed. cbn zeta. destruct FC' as [(it & err & it' & E2 & R & Ln)|(E2 & ->)]; rewrite E2 in *.
  - destruct LC as [(D & E & HD & LD)|(E & _)]; [|discriminate]. injection E as ->. cbn [li_ncmds lc_at] in Ln.
    split; [lia|]. split; [reflexivity|]. left. exists (lc_at D (mh_n h) (table_size is64)), err, it'.
    pose proof (holds_bounds _ _ _ HD) as HbD. assert (BD : bytes_ok D) by (exact (holds_bytes _ _ _ B HD)).
    destruct (lc_total e D (mh_n h) (table_size is64) BD ltac:(lia) ltac:(lia) ltac:(lia)) as (l1 & err1 & s1 & R1 & S1 & _).
    destruct (runs_det _ _ _ _ _ R1 _ _ _ R) as (_ & _ & ->).
    split; [reflexivity|]. split; [exact R|]. split; [exact S1|]. split; [exact Ln|]. split; [cbn [li_ncmds lc_at]; lia|].
    pose proof (proj1 (lc_iff e D (mh_n h) (table_size is64) l err BD ltac:(lia) ltac:(lia) ltac:(lia)) (ex_intro _ _ R)) as (rest & _ & Q). unfold complete.
    destruct err; cbn [negb] in Q; [split; [discriminate|lia]|]. split; [intros _|reflexivity]. split; [exact Q|]. right. lia.
  - split; [cbn; lia|]. split; [reflexivity|]. right. split; [reflexivity|]. split; [reflexivity|]. destruct LC as [(D & E & _)|(_ & N0 & NL)]; [discriminate|]. unfold complete. lia.
Qed.
Fixpoint fold_o {A} (step : A -> lcmd -> out A) (l : list lcmd) (acc : A) : out A :=
  match l with [] => Ok acc | c :: l => a <- step acc c ;; fold_o step l a end.
Lemma cmds_fold_eq {A} e (step : A -> lcmd -> out A) it l err it' : runs (lc_next e) it l err it' -> forall fuel acc, (length l < fuel)%nat ->
  cmds_fold fuel e it step acc = (a <- fold_o step l acc ;; if err then Err else Ok a).
Proof.
  induction 1 as [it it' E|it it' E|it it1 it' c l err E _ IH]; intros fuel acc Hf; (destruct fuel as [|fuel]; [lia|]); cbn [cmds_fold fold_o bind]; rewrite E; [reflexivity|reflexivity|].
  destruct (step acc c) as [a| |]; cbn [bind]; try reflexivity. apply IH. cbn [length] in Hf. lia.
Qed.
Lemma mf_fold_iff {A} is64 F f h r l (step : A -> lcmd -> out A) acc a : file_ok F -> mach_parse is64 F = Ok f -> mhdr_ok h -> mf_header f = mach_hdr is64 (mf_endian f) h r -> file_commands is64 (mf_endian f) F h l ->
  mf_cmds_fold f step acc = Ok a <-> complete is64 F h l /\ fold_o step l acc = Ok a.
Proof.
  intros HF EP Ho Eh FC. destruct (load_ok _ _ _ _ _ _ HF EP Ho Eh FC) as (_ & _ & _ & [(it & err & it' & E & R & _ & Ln & _ & C)|(E & -> & C)]); unfold mf_cmds_fold; rewrite E; cbn [bind].
  - rewrite (cmds_fold_eq _ step it l err it' R) by (unfold zlen in Ln; lia). destruct (fold_o step l acc) as [b| |]; cbn [bind]; [|split; [discriminate|intros (_ & Q); discriminate Q]..].
    destruct err; [split; [discriminate|intros (Q & _); apply C in Q; discriminate Q]|]. split; [intros Q; split; [apply C; reflexivity|exact Q]|intros (_ & Q); exact Q].
  - split; [discriminate|]. tauto.
Qed.
Lemma mf_fold_np {A} is64 F f h r l (step : A -> lcmd -> out A) acc : (forall a c, step a c <> Panic) ->
  file_ok F -> mach_parse is64 F = Ok f -> mhdr_ok h -> mf_header f = mach_hdr is64 (mf_endian f) h r -> file_commands is64 (mf_endian f) F h l -> mf_cmds_fold f step acc <> Panic.
Proof.
  intros N HF EP Ho Eh FC. destruct (load_ok _ _ _ _ _ _ HF EP Ho Eh FC) as (_ & _ & _ & [(it & err & it' & E & R & _ & Ln & _ & C)|(E & _)]); unfold mf_cmds_fold; rewrite E; cbn [bind]; [|discriminate].
  rewrite (cmds_fold_eq _ step it l err it' R) by (unfold zlen in Ln; lia). clear - N. revert acc. induction l as [|c l IH]; intros acc; cbn [fold_o bind]; [destruct err; discriminate|].
  specialize (N acc c). destruct (step acc c) as [b| |]; cbn [bind]; [apply IH|discriminate|congruence].
Qed.
(** * Libraries *)
Lemma is_dylib_iff c : is_dylib c = true <-> names_library c.
Proof. unfold is_dylib, names_library, zmem. rewrite existsb_exists. split; [intros (x & H & E); replace (lc_cmd c) with x by lia; exact H|]. intros H. exists (lc_cmd c). split; [exact H|lia]. Qed.
Lemma struct_np c n : 0 <= n -> lc_struct c n <> Panic.
Proof. intros Hn. unfold lc_struct. rewrite b_read_at_eq by lia. destruct (_ <=? _); discriminate. Qed.
Lemma lc_string_np c o : lc_string c o <> Panic.
Proof. unfold lc_string. apply ArSym_proofs.string_at_no_panic. Qed.
(** the command that a struct of 24 bytes is *)
Lemma struct24 e c d : cmd_ok e c -> lc_struct c 24 = Ok d -> exists tl, lc_data c = d ++ tl /\ zlen d = 24 /\ bytes_ok d /\
  d = write_u e 4 (lc_cmd c) ++ write_u e 4 (zlen (lc_data c)) ++ write_u e 4 (fld e 8 4 d) ++ write_u e 4 (fld e 12 4 d) ++ write_u e 4 (fld e 16 4 d) ++ write_u e 4 (fld e 20 4 d).
Proof.
  intros K E. apply struct_iff in E as (L & tl & Ed); [|lia]. exists tl. split; [exact Ed|]. split; [exact L|].
  assert (Bb : bytes_ok d) by (destruct K as (B & _); rewrite Ed in B; apply bytes_ok_app in B; apply B). split; [exact Bb|].
  pose proof (cmd_head e c d tl K Ed ltac:(lia)) as H8. rewrite app_assoc, <- H8. unfold fld. symmetry. pod_join. apply zslice_all. lia.
Qed.
Lemma struct24_of e c off ts cur compat tl : u32_ok off -> u32_ok ts -> u32_ok cur -> u32_ok compat ->
  lc_data c = write_u e 4 (lc_cmd c) ++ write_u e 4 (zlen (lc_data c)) ++ write_u e 4 off ++ write_u e 4 ts ++ write_u e 4 cur ++ write_u e 4 compat ++ tl ->
  exists d, lc_struct c 24 = Ok d /\ fld e 8 4 d = off /\ fld e 12 4 d = ts /\ fld e 16 4 d = cur /\ fld e 20 4 d = compat /\ lc_data c = d ++ tl /\ zlen d = 24.
Proof.
  intros H1 H2 H3 H4 E. set (d := write_u e 4 (lc_cmd c) ++ write_u e 4 (zlen (lc_data c)) ++ write_u e 4 off ++ write_u e 4 ts ++ write_u e 4 cur ++ write_u e 4 compat).
  assert (Ld : zlen d = 24) by (unfold d; rewrite !zlen_app, !zlen_write_u; reflexivity). assert (Ed : lc_data c = d ++ tl) by (rewrite E at 1; unfold d; rewrite <- !app_assoc; reflexivity).
  exists d. split; [apply struct_iff; [lia|]; split; [exact Ld|exists tl; exact Ed]|].
  split; [unfold d; rewrite !fld_skip by lia; apply fld_hd; [reflexivity|exact H1]|].
  split; [unfold d; rewrite !fld_skip by lia; apply fld_hd; [reflexivity|exact H2]|].
  split; [unfold d; rewrite !fld_skip by lia; apply fld_hd; [reflexivity|exact H3]|].
  split; [unfold d; rewrite !fld_skip by lia; rewrite <- (app_nil_r (write_u e 4 compat)); apply fld_hd; [reflexivity|exact H4]|]. split; [exact Ed|exact Ld].
Qed.
Lemma name_iff e c name : cmd_ok e c -> names_library c -> (exists d, lc_dylib c = Ok (Some d) /\ lc_string c (fld e 8 4 d) = Ok name) <-> exists off ts cur compat tl, library_command e c off ts cur compat tl name.
Proof.
  intros K I. apply is_dylib_iff in I. unfold lc_dylib. rewrite I. split.
  - intros (d & E & N). destruct (lc_struct c 24) as [d'| |] eqn:Es; cbn [bind] in E; try discriminate. injection E as ->. destruct (struct24 _ _ _ K Es) as (tl & Ed & L & B & Eq).
    pose proof (fld_bound e 8 4 d B ltac:(lia) ltac:(lia)) as B1. pose proof (fld_bound e 12 4 d B ltac:(lia) ltac:(lia)) as B2. pose proof (fld_bound e 16 4 d B ltac:(lia) ltac:(lia)) as B3. pose proof (fld_bound e 20 4 d B ltac:(lia) ltac:(lia)) as B4.
    exists (fld e 8 4 d), (fld e 12 4 d), (fld e 16 4 d), (fld e 20 4 d), tl. unfold library_command. split; [exact B1|]. split; [exact B2|]. split; [exact B3|]. split; [exact B4|]. split.
    + rewrite Ed at 1. rewrite Eq at 1. rewrite <- !app_assoc. reflexivity.
    + apply ArSym_proofs.string_at_iff; [apply B1|exact N].
  - intros (off & ts & cur & compat & tl & H1 & H2 & H3 & H4 & E & N). destruct (struct24_of e c off ts cur compat tl H1 H2 H3 H4 E) as (d & Es & <- & _).
    exists d. rewrite Es. cbn [bind]. split; [reflexivity|]. apply ArSym_proofs.string_at_iff; [apply H1|exact N].
Qed.
Lemma libraries_fold e l : Forall (cmd_ok e) l -> forall acc libs, fold_o (libraries_step e) l acc = Ok libs <-> exists names, library_names e l names /\ libs = acc ++ names.
Proof.
  induction 1 as [|c l K _ IH]; intros acc libs; cbn [fold_o bind].
  - split; [intros [= ->]; exists []; split; [constructor|rewrite app_nil_r; reflexivity]|]. intros (names & H & ->). inversion H; subst. rewrite app_nil_r. reflexivity.
  - destruct (is_dylib c) eqn:I.
    + pose proof (proj1 (is_dylib_iff c) I) as I'. split.
      * intros Q. destruct (libraries_step e acc c) as [a| |] eqn:E; cbn [bind] in Q; try discriminate. unfold libraries_step in E.
        destruct (lc_dylib c) as [[d|]| |] eqn:Ed; cbn [bind] in E; try discriminate.
        -- destruct (lc_string c (fld e 8 4 d)) as [name| |] eqn:En; cbn [bind] in E; try discriminate. injection E as <-. apply IH in Q as (names & H & ->).
           destruct (proj1 (name_iff e c name K I')) as (off & ts & cur & compat & tl & LC); [eauto|]. exists (name :: names). split; [eapply ln_take; eauto|]. rewrite <- app_assoc. reflexivity.
        -- unfold lc_dylib in Ed. rewrite I in Ed. destruct (lc_struct c 24); cbn [bind] in Ed; discriminate.
      * intros (names & H & ->). inversion H as [|? off ts cur compat tl name ? ns _ LC T|]; subst; [|contradiction].
        destruct (proj2 (name_iff e c name K I')) as (d & Ed & En); [do 5 eexists; exact LC|]. unfold libraries_step. rewrite Ed. cbn [bind]. rewrite En. cbn [bind]. apply IH. exists ns. split; [exact T|]. rewrite <- app_assoc. reflexivity.
    + assert (I' : ~ names_library c) by (rewrite <- is_dylib_iff; congruence). unfold libraries_step at 1. unfold lc_dylib. rewrite I. cbn [bind]. rewrite IH. split; intros (names & H & ->); exists names; (split; [|reflexivity]).
      * apply ln_skip; assumption.
      * inversion H; subst; [contradiction|assumption].
Qed.
Lemma libraries_step_np e a c : libraries_step e a c <> Panic.
Proof.
  unfold libraries_step, lc_dylib. destruct (is_dylib c); cbn [bind]; [|discriminate]. pose proof (struct_np c 24 ltac:(lia)). destruct (lc_struct c 24) as [d| |]; cbn [bind]; [|discriminate|congruence].
  pose proof (lc_string_np c (fld e 8 4 d)). destruct (lc_string c (fld e 8 4 d)); cbn [bind]; [discriminate|discriminate|congruence].
Qed.
Lemma lib_of_iff e c n x : cmd_ok e c -> lib_of e c n = Ok x <-> library_of e c n x.
Proof.
  intros K. unfold lib_of, library_of. split.
  - intros Q. destruct (lc_struct c 24) as [d| |] eqn:Es; cbn [bind] in Q; try discriminate. destruct (lc_string c (fld e 8 4 d)) as [name| |] eqn:En; cbn [bind] in Q; try discriminate.
    destruct (dylib_use_flags e c d) as [use| |] eqn:Eu; cbn [bind] in Q; try discriminate. injection Q as <-. cbn [lb_name lb_ordinal lb_cmd lb_current lb_compat lb_use].
    destruct (struct24 _ _ _ K Es) as (tl & Ed & L & B & Eq).
    pose proof (fld_bound e 8 4 d B ltac:(lia) ltac:(lia)) as B1. pose proof (fld_bound e 12 4 d B ltac:(lia) ltac:(lia)) as B2. pose proof (fld_bound e 16 4 d B ltac:(lia) ltac:(lia)) as B3. pose proof (fld_bound e 20 4 d B ltac:(lia) ltac:(lia)) as B4.
    exists (fld e 8 4 d), (fld e 12 4 d), tl. split.
    + unfold library_command. split; [exact B1|]. split; [exact B2|]. split; [exact B3|]. split; [exact B4|]. split.
      * rewrite Ed at 1. rewrite Eq at 1. rewrite <- !app_assoc. reflexivity.
      * apply ArSym_proofs.string_at_iff; [apply B1|exact En].
    + split; [reflexivity|]. split; [reflexivity|]. unfold dylib_use_flags in Eu. destruct (Z.eqb_spec (fld e 8 4 d) 28); cbn [negb orb andb] in *; [|injection Eu as <-; reflexivity].
      destruct (Z.eqb_spec (fld e 12 4 d) 0x1a741800); cbn [negb] in *; [|injection Eu as <-; reflexivity]. rewrite b_read_at_eq in Eu by lia.
      destruct (Z.leb_spec (24 + 4) (zlen (lc_data c))) as [Hl|]; cbn [bind] in Eu; [|discriminate]. injection Eu as <-.
      assert (Et : zslice 24 4 (lc_data c) = ztake 4 tl) by (rewrite Ed; unfold zslice; rewrite zdrop_app_eq by (symmetry; exact L); reflexivity). rewrite Et.
      rewrite Ed, zlen_app in Hl. assert (Bt : bytes_ok (ztake 4 tl)) by (apply bytes_ok_ztake; destruct K as (Bc & _); rewrite Ed in Bc; apply bytes_ok_app in Bc; apply Bc).
      exists (fld e 0 4 (ztake 4 tl)), (zdrop 4 tl). assert (L4 : zlen (ztake 4 tl) = 4) by (apply zlen_ztake; lia). split; [apply (fld_bound e 0 4); [exact Bt|lia|lia]|]. split; [|reflexivity].
      rewrite <- (ztake_zdrop 4 tl) at 1. f_equal. unfold fld. rewrite zslice_all by (symmetry; exact L4). symmetry. apply (write_read_n e 4); [exact Bt|exact L4].
  - intros (off & ts & tl & (H1 & H2 & H3 & H4 & E & N) & <- & Ec & U). destruct (struct24_of e c off ts _ _ tl H1 H2 H3 H4 E) as (d & Es & Q1 & Q2 & Q3 & Q4 & Ed & L). rewrite Es. cbn [bind].
    rewrite Q1, Q3, Q4. replace (lc_string c off) with (Ok (lb_name x)) by (symmetry; apply ArSym_proofs.string_at_iff; [apply H1|exact N]). cbn [bind].
    assert (Eu : dylib_use_flags e c d = Ok (lb_use x)).
    { unfold dylib_use_flags. rewrite Q1, Q2. destruct (off =? 28); cbn [negb orb andb] in *; [|rewrite U; reflexivity]. destruct (ts =? 0x1a741800); cbn [negb] in *; [|rewrite U; reflexivity].
      destruct U as (fl & tl' & Hf & -> & ->). rewrite b_read_at_eq by lia. rewrite Ed, !zlen_app, L, zlen_write_u. pose proof (zlen_nonneg tl').
      replace (24 + 4 <=? 24 + (Z.of_nat 4 + zlen tl')) with true by lia. cbn [bind]. do 2 f_equal. unfold zslice. rewrite zdrop_app_eq by (symmetry; exact L). rewrite ztake_app_eq by (symmetry; apply zlen_write_u).
      rewrite <- (app_nil_r (write_u e 4 fl)). apply fld_hd; [reflexivity|exact Hf]. }
    rewrite Eu. cbn [bind]. rewrite <- Ec. destruct x; reflexivity.
Qed.
Lemma lib_of_np e c n : lib_of e c n <> Panic.
Proof.
  unfold lib_of. pose proof (struct_np c 24 ltac:(lia)). destruct (lc_struct c 24) as [d| |]; cbn [bind]; [|discriminate|congruence].
  pose proof (lc_string_np c (fld e 8 4 d)). destruct (lc_string c (fld e 8 4 d)); cbn [bind]; [|discriminate|congruence].
  unfold dylib_use_flags. destruct (_ || _); cbn [bind]; [discriminate|]. rewrite b_read_at_eq by lia. destruct (_ <=? _); discriminate.
Qed.
Lemma lc_next_dec e it c it1 : lc_next e it = (Ok (Some c), it1) -> li_ncmds it1 = li_ncmds it - 1.
Proof.
  unfold lc_next. destruct (li_ncmds it =? 0); [discriminate|]. destruct (lc_parse e it) as [[x| |] s] eqn:E; try discriminate. intros Q. injection Q as -> <-. cbn [li_ncmds lc_set_ncmds].
  assert (li_ncmds s = li_ncmds it); [|lia]. revert E. clear. unfold lc_parse. repeat match goal with |- context [match ?m with _ => _ end] => destruct m as [[?| |] ?] || destruct m end; intros [= <- <-] || intros Q; try discriminate Q; reflexivity.
Qed.
Lemma results_eq {S A} (next : S -> out (option A) * S) st st1 L : next st = next st1 -> results next st1 L -> results next st L.
Proof. intros E R. inversion R; subst; rewrite <- E in *; econstructor; eassumption. Qed.
Lemma libs_results e it l err it' : runs (lc_next e) it l err it' -> Forall (cmd_ok e) l -> lc_next e it' = (Ok None, it') -> zlen l <= li_ncmds it -> forall k, 0 <= k -> k + zlen l < 2 ^ 32 ->
  exists L, libraries_of e k l L /\ results (lib_next e) (it, k) (L ++ bad_end err).
Proof.
  induction 1 as [it it' E|it it' E|it it1 it' c l err E R IH]; intros K N Ln k Hk Hl.
  - exists []. split; [constructor|]. eapply res_end. unfold lib_next. cbn [fst snd lib_loop]. rewrite E. reflexivity.
  - exists []. split; [constructor|]. cbn [app bad_end]. eapply res_err; [unfold lib_next; cbn [fst snd lib_loop]; rewrite E; reflexivity|]. eapply res_end. unfold lib_next. cbn [fst snd lib_loop]. rewrite N. reflexivity.
  - pose proof (lc_next_dec _ _ _ _ E) as D. rewrite zlen_cons in Ln, Hl. pose proof (zlen_nonneg l). inversion K as [|? ? Kc Kl]; subst.
    destruct (is_dylib c) eqn:I.
    + pose proof (proj1 (is_dylib_iff c) I) as I'. destruct (IH Kl N ltac:(lia) (k + 1) ltac:(lia) ltac:(lia)) as (L & H1 & H2).
      assert (En : lib_next e (it, k) = (l <- lib_of e c (k + 1) ;; Ok (Some l), (it1, k + 1))).
      { unfold lib_next. cbn [fst snd lib_loop]. rewrite E, I. unfold padd. replace (k + 1 <? 2 ^ 32) with true by lia. reflexivity. }
      pose proof (lib_of_np e c (k + 1)) as NP. destruct (lib_of e c (k + 1)) as [x| |] eqn:Ex; cbn [bind] in En; [| |congruence].
      * exists (Some x :: L). split; [apply lo_take; [exact I'| |exact H1]; apply lib_of_iff; assumption|]. eapply res_ok; eassumption.
      * exists (None :: L). split; [apply lo_bad; [exact I'| |exact H1]; intros x Hx; apply (lib_of_iff _ _ _ _ Kc) in Hx; congruence|]. eapply res_err; eassumption.
    + destruct (IH Kl N ltac:(lia) k ltac:(lia) ltac:(lia)) as (L & H1 & H2). exists L. split; [apply lo_skip; [rewrite <- is_dylib_iff; congruence|exact H1]|].
      eapply results_eq; [|exact H2]. unfold lib_next. cbn [fst snd]. transitivity (lib_loop (Z.to_nat (li_ncmds it)) e it1 k); [cbn [lib_loop]; rewrite E, I; reflexivity|]. rewrite D. replace (Z.to_nat (li_ncmds it)) with (Datatypes.S (Z.to_nat (li_ncmds it - 1))) by lia. reflexivity.
Qed.

(** * Symbols *)
Lemma n_typ_bits n : 0 <= n_type n < 256 -> n_typ n = 2 * type_bits n.
Proof.
  intros H. unfold n_typ, type_bits.
  assert (F : forallb (fun x => Z.land x 14 =? 2 * ((x / 2) mod 8)) (map Z.of_nat (seq 0 256)) = true) by (vm_compute; reflexivity).
  rewrite forallb_forall in F. specialize (F (n_type n)). apply Z.eqb_eq, F. apply in_map_iff. exists (Z.to_nat (n_type n)). split; [lia|]. apply in_seq. lia.
Qed.
Lemma undefined_iff is64 n : nlist_ok is64 n -> my_is_undefined n = true <-> undefined n.
Proof.
  intros K. pose proof (stab_iff is64 n K) as S'. destruct K as (_ & H & _). unfold my_is_undefined, undefined. rewrite (n_typ_bits n H). destruct (is_stab n); cbn [negb andb].
  - split; [discriminate|]. intros (N & _). exfalso. apply N, S'. reflexivity.
  - assert (N : ~ stab n) by (rewrite <- S'; discriminate). split; [intros Q; split; [exact N|lia]|intros (_ & Q & Q'); lia].
Qed.
Lemma sym_import_ok is64 t libs tw n : nlist_ok is64 n -> (forall o, strings_get (mt_strings t) o <> Panic) ->
  (sym_import t libs tw n = None <-> ~ undefined n) /\ sym_import t libs tw n <> Some Panic /\ forall y, sym_import t libs tw n = Some (Ok y) <-> ~ ~ undefined n /\ symbol_import t libs tw n y.
Proof.
  intros K NP. pose proof (undefined_iff is64 n K) as U. destruct K as (_ & _ & _ & (D & D') & _). unfold sym_import. destruct (my_is_undefined n) eqn:Eu; cbn [negb].
  2: { assert (~ undefined n) by (rewrite <- U; discriminate). split; [tauto|]. split; [discriminate|]. intros y. split; [discriminate|tauto]. }
  assert (Un : undefined n) by (apply U; reflexivity). split; [split; [discriminate|tauto]|].
  assert (Eo : wrap_u 8 (Z.shiftr (n_desc n) 8) = n_desc n / 256) by (unfold wrap_u; rewrite Z.shiftr_div_pow2 by lia; apply Z.mod_small; change (2 ^ 8) with 256; split; [apply Z.div_pos; lia|apply Z.div_lt_upper_bound; lia]).
  assert (H0 : 0 <= n_desc n / 256) by (apply Z.div_pos; lia).
  set (lib := if tw then _ else _). assert (EL : lib = if tw && (1 <=? n_desc n / 256) && (n_desc n / 256 <=? 253) then of_opt (zget libs (n_desc n / 256)) else Ok []).
  { unfold lib. destruct tw; cbn [andb]; [|reflexivity]. rewrite Eo. destruct (Z.eqb_spec (n_desc n / 256) 0) as [E|E]; cbn [orb]; [rewrite E; reflexivity|]. replace (1 <=? n_desc n / 256) with true by lia. cbn [andb].
    destruct (Z.leb_spec (n_desc n / 256) 253); destruct (Z.ltb_spec 253 (n_desc n / 256)); reflexivity || lia. }
  rewrite EL. clear EL lib. unfold nlist_name at 1 2. pose proof (NP (n_strx n)) as NPn. unfold symbol_import, sym_name, nlist_name. cbn zeta. split.
  - destruct (strings_get (mt_strings t) (n_strx n)); cbn [bind]; [|discriminate|congruence]. destruct (_ && _); cbn [bind]; [|discriminate]. destruct (zget libs _); discriminate.
  - intros y. change 64 with (2 ^ 6). rewrite fl_has_bit by lia. destruct (strings_get (mt_strings t) (n_strx n)) as [name| |]; cbn [bind]; [|split; [discriminate|intros (_ & Q & _); discriminate Q]|congruence].
    destruct (tw && _ && _); cbn [bind].
    + destruct (zget libs (n_desc n / 256)) as [lib|]; cbn [of_opt bind]; [|split; [discriminate|intros (_ & _ & _ & _ & Q); discriminate Q]]. split.
      * intros [= <-]. cbn. repeat split; tauto.
      * intros (_ & [= H1] & H2 & H3 & [= H4]). destruct y; cbn in *. congruence.
    + split.
      * intros [= <-]. cbn. repeat split; tauto.
      * intros (_ & [= H1] & H2 & H3 & H4). destruct y; cbn in *. congruence.
Qed.
Lemma type17 v : fl_has v 17 = Z.testbit v 0 && Z.testbit v 4.
Proof.
  unfold fl_has. destruct (Z.eqb_spec (Z.land v 17) 17) as [E|E].
  - assert (H0 : Z.testbit (Z.land v 17) 0 = true) by (rewrite E; reflexivity). assert (H4 : Z.testbit (Z.land v 17) 4 = true) by (rewrite E; reflexivity). rewrite !Z.land_spec in *. apply andb_prop in H0 as (-> & _). apply andb_prop in H4 as (-> & _). reflexivity.
  - destruct (Z.testbit v 0) eqn:E0; cbn [andb]; [|reflexivity]. destruct (Z.testbit v 4) eqn:E4; [|reflexivity]. exfalso. apply E. apply Z.bits_inj'. intros i Hi. rewrite Z.land_spec.
    destruct (Z.testbit 17 i) eqn:Ei; [|apply andb_false_r]. rewrite andb_true_r. assert (i = 0 \/ i = 4) as [->| ->]; [|assumption..].
    destruct (Z_lt_ge_dec i 5) as [Hl|Hl]; [|rewrite Z.bits_above_log2 in Ei by (cbn; lia); discriminate]. assert (i = 0 \/ i = 1 \/ i = 2 \/ i = 3 \/ i = 4) as [->|[->|[->|[->| ->]]]] by lia; cbn in Ei; try discriminate; lia.
Qed.
Lemma sym_export_ok is64 f n : nlist_ok is64 n -> (forall o, strings_get (mt_strings (mf_symbols f)) o <> Panic) ->
  (sym_export f n = None <-> not_exported (mf_symbols f) n) /\ sym_export f n <> Some Panic /\ forall y, sym_export f n = Some (Ok y) <-> ~ not_exported (mf_symbols f) n /\ symbol_export f n y.
Proof.
  intros K NP. pose proof (stab_iff is64 n K) as S'. destruct K as (_ & T & (Sc & _) & _). unfold sym_export.
  assert (X : is_stab n || negb (fl_has (n_type n) 1) || fl_has (n_type n) 17 = true <-> ~ external n).
  { rewrite type17. change 1 with (2 ^ 0). rewrite fl_has_bit by lia. unfold external. destruct (is_stab n); [assert (stab n) by (apply S'; reflexivity); cbn; tauto|]. assert (~ stab n) by (rewrite <- S'; discriminate).
    destruct (Z.testbit (n_type n) 0), (Z.testbit (n_type n) 4); cbn [negb orb andb]; intuition congruence. }
  unfold not_exported. destruct (is_stab n || _ || _).
  { assert (~ external n) by (apply X; reflexivity). split; [tauto|]. split; [discriminate|]. intros y. split; [discriminate|tauto]. }
  assert (Ex : external n) by (destruct X as (_ & X); unfold external in *; destruct (Z.testbit (n_type n) 0), (Z.testbit (n_type n) 4); try (exfalso; intuition congruence); split; [|split; reflexivity]; intros Q; assert (false = true) by (apply X; tauto); discriminate).
  clear X. unfold sym_name, symbol_export, sym_name. unfold nlist_name at 1 3. pose proof (NP (n_strx n)) as NPn. change (nlist_name (mf_symbols f) n) with (strings_get (mt_strings (mf_symbols f)) (n_strx n)).
  destruct (strings_get (mt_strings (mf_symbols f)) (n_strx n)) as [name| |] eqn:En; [| |congruence].
  2: { split; [split; [discriminate|intros [Q|(_ & x & Q)]; [tauto|discriminate]]|]. split; [discriminate|]. intros y. split; [discriminate|]. intros (_ & Q & _). discriminate. }
  pose proof (n_typ_bits n T) as Et. unfold sym_target. rewrite Et. change 128 with (2 ^ 7). change 256 with (2 ^ 8). rewrite !fl_has_bit by lia.
  destruct (Z.eqb_spec (2 * type_bits n) 2) as [E1|N1]; [|destruct (Z.eqb_spec (2 * type_bits n) 10) as [E5|N5]; [|destruct (Z.eqb_spec (2 * type_bits n) 14) as [E7|N7]]].
  - assert (I : In (type_bits n) [1; 5; 7]) by (cbn; lia). split; [split; [discriminate|tauto]|]. split; [discriminate|]. intros y. split.
    + intros [= <-]. cbn. split; [tauto|]. repeat split. left. split; [lia|reflexivity].
    + intros (_ & [= H1] & H2 & H3 & [(_ & H4)|[(Q & _)|[(Q & _)|(Q & _)]]]); try lia. destruct y; cbn in *. congruence.
  - assert (I : In (type_bits n) [1; 5; 7]) by (cbn; lia). split; [split; [discriminate|tauto]|]. destruct (Z.ltb_spec (n_value n) (2 ^ 32)) as [Hv|Hv].
    + pose proof (NP (n_value n)) as NPv. destruct (strings_get (mt_strings (mf_symbols f)) (n_value n)) as [tn| |] eqn:Ev; cbn [bind]; [| |congruence].
      * split; [discriminate|]. intros y. split.
        -- intros [= <-]. cbn. split; [tauto|]. repeat split. right. left. split; [lia|]. split; [exact Hv|]. exists tn. split; [congruence|reflexivity].
        -- intros (_ & [= H1] & H2 & H3 & [(Q & _)|[(_ & _ & tn' & Q & H4)|[(Q & _)|(Q & _)]]]); try lia. injection Q as ->. destruct y; cbn in *. congruence.
      * split; [discriminate|]. intros y. split; [discriminate|]. intros (_ & _ & _ & _ & [(Q & _)|[(_ & _ & tn' & Q & H4)|[(Q & _)|(Q & _)]]]); try lia. congruence.
    + cbn [bind]. split; [discriminate|]. intros y. split; [discriminate|]. intros (_ & _ & _ & _ & [(Q & _)|[(_ & Q & _)|[(Q & _)|(Q & _)]]]); lia.
  - assert (I : In (type_bits n) [1; 5; 7]) by (cbn; lia). split; [split; [discriminate|tauto]|]. destruct (Z.testbit (n_desc n) 8) eqn:E8; cbn [bind].
    + split; [discriminate|]. intros y. split.
      * intros [= <-]. cbn. split; [tauto|]. repeat split. right. right. left. split; [lia|]. split; reflexivity.
      * intros (_ & [= H1] & H2 & H3 & [(Q & _)|[(Q & _)|[(_ & _ & H4)|(_ & Q & _)]]]); try lia; try discriminate. destruct y; cbn in *. congruence.
    + unfold mach_section, csub. destruct (Z.leb_spec 1 (n_sect n)) as [H1|H1]; cbn [of_opt bind].
      * destruct (zget (mf_sections f) (n_sect n - 1)) as [s|] eqn:Es; cbn [of_opt bind].
        -- split; [discriminate|]. intros y. split.
           ++ intros [= <-]. cbn. split; [tauto|]. repeat split. right. right. right. split; [lia|]. split; [reflexivity|]. exists s. repeat split; assumption.
           ++ intros (_ & [= G1] & G2 & G3 & [(Q & _)|[(Q & _)|[(_ & Q & _)|(_ & _ & s' & _ & Q & G4)]]]); try lia; try discriminate. injection Q as ->. destruct y; cbn in *. congruence.
        -- split; [discriminate|]. intros y. split; [discriminate|]. intros (_ & _ & _ & _ & [(Q & _)|[(Q & _)|[(_ & Q & _)|(_ & _ & s' & _ & Q & G4)]]]); try lia; try discriminate.
      * split; [discriminate|]. intros y. split; [discriminate|]. intros (_ & _ & _ & _ & [(Q & _)|[(Q & _)|[(_ & Q & _)|(_ & _ & s' & Q & _)]]]); try lia; try discriminate.
  - assert (I : ~ In (type_bits n) [1; 5; 7]) by (cbn; lia). split; [split; [intros _; right; split; [exact I|eauto]|reflexivity]|]. split; [discriminate|]. intros y. split; [discriminate|]. intros (Q & _). exfalso. apply Q. right. split; [exact I|eauto].
Qed.

(** * Chained fixups *)
Lemma bind_library_iff libs d name : bind_library libs d = Ok name <-> library_at libs d name.
Proof. unfold bind_library, library_at. destruct (d <=? 0); [split; congruence|]. destruct (zget libs d); cbn [of_opt]; split; congruence. Qed.
Lemma bind_library_np libs d : bind_library libs d <> Panic.
Proof. unfold bind_library. destruct (d <=? 0); [discriminate|]. destruct (zget libs d); discriminate. Qed.
Lemma ci_next_dec e it x it1 : ci_next e it = (Ok (Some x), it1) -> ci_count it1 = ci_count it - 1 /\ 1 <= ci_count it.
Proof.
  unfold ci_next. destruct (ci_count it =? 0); [discriminate|]. destruct (cimport_parse e (ci_format it) (ci_symbols it) (ci_imports it)) as [[y| |] d]; try discriminate.
  unfold psub. destruct (Z.leb_spec 1 (ci_count it)); [|discriminate]. intros [= _ <-]. cbn [ci_count]. lia.
Qed.
Lemma ci_next_after e it it' : ci_next e it = (Err, it') -> ci_next e it' = (Ok None, it').
Proof.
  unfold ci_next. destruct (ci_count it =? 0); [discriminate|]. destruct (cimport_parse e (ci_format it) (ci_symbols it) (ci_imports it)) as [[y| |] d]; try discriminate.
  - destruct (psub (ci_count it) 1); discriminate.
  - intros [= <-]. reflexivity.
Qed.
Lemma fixups_results e libs it l err it' : runs (ci_next e) it l err it' -> exists L, picks (fun c => cm_dylib c = 0) (fixup_import libs) l L /\ results (fix_import_next e libs) it (L ++ bad_end err).
Proof.
  induction 1 as [it it' E|it it' E|it it1 it' c l err E R IH].
  - exists []. split; [constructor|]. eapply res_end. unfold fix_import_next. cbn [fix_import_loop]. rewrite E. reflexivity.
  - exists []. split; [constructor|]. cbn [app bad_end]. eapply res_err; [unfold fix_import_next; cbn [fix_import_loop]; rewrite E; reflexivity|]. eapply res_end. unfold fix_import_next. cbn [fix_import_loop]. rewrite (ci_next_after _ _ _ E). reflexivity.
  - destruct IH as (L & H1 & H2). destruct (ci_next_dec _ _ _ _ E) as (D & D').
    destruct (Z.eqb_spec (cm_dylib c) 0) as [E0|N0].
    + exists L. split; [apply pk_skip; assumption|]. eapply results_eq; [|exact H2]. unfold fix_import_next. transitivity (fix_import_loop (Z.to_nat (ci_count it)) e libs it1); [cbn [fix_import_loop]; rewrite E; replace (cm_dylib c =? 0) with true by lia; reflexivity|]. rewrite D.
      replace (Z.to_nat (ci_count it)) with (Datatypes.S (Z.to_nat (ci_count it - 1))) by lia. reflexivity.
    + set (m := library <- bind_library libs (cm_dylib c) ;; Ok (Some {| im_library := library; im_name := cm_name c; im_weak := cm_weak c; im_flags := MFBind (cm_dylib c) (if cm_weak c then 1 else 0) |})).
      assert (En : fix_import_next e libs it = (m, it1)) by (unfold fix_import_next; cbn [fix_import_loop]; rewrite E; replace (cm_dylib c =? 0) with false by lia; reflexivity).
      unfold m in En. clear m. pose proof (bind_library_np libs (cm_dylib c)) as NP. destruct (bind_library libs (cm_dylib c)) as [lib| |] eqn:EL; cbn [bind] in En; [| |congruence].
      * eexists (Some _ :: L). split; [apply pk_take; [exact N0| |exact H1]|cbn [app]; eapply res_ok; eassumption]. unfold fixup_import. cbn. repeat split. apply bind_library_iff. exact EL.
      * exists (None :: L). split; [apply pk_bad; [exact N0| |exact H1]|cbn [app]; eapply res_err; eassumption]. intros y (Q & _). apply bind_library_iff in Q. congruence.
Qed.
