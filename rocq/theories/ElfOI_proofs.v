(** Lemmas about [elf_write]: the tables and the section headers. *)
From Verif Require Import Base Core_spec Core_proofs Str_spec Str_proofs Buf_proofs Map_proofs Util_proofs File_spec File_proofs Hash_proofs Pod_proofs Elf_proofs ElfR_proofs MachW_proofs.
From Verif Require CoffW_proofs.
From Verif Require Import ElfW_spec ElfWR_proofs ElfWB_proofs ElfWC_proofs ElfWT_proofs ElfO_model ElfO_proofs ElfOB_proofs ElfOC_proofs ElfOD_proofs ElfOE_proofs ElfOF_proofs ElfOG_proofs ElfOH_proofs.
Notation strtab := Str_model.strtab (only parsing).

Lemma map_sym_inj s l1 l2 : map (WSymbol s) l1 = map (WSymbol s) l2 -> l1 = l2.
Proof. revert l2. induction l1 as [|x l1 IH]; intros [|y l2] E; cbn [map] in E; try discriminate; [reflexivity|]. injection E as E E'. subst. f_equal. apply IH. exact E'. Qed.

Section Tabs.
Context (o : obj) (is_rela is64 : bool) (p : eplan) (R : rst) (nd : bool) (P1 : phase1 o is_rela is64 p R nd).
Context (Few : zlen (o_comdats o) + zlen (o_sections o) + zlen (o_symbols o) < 2 ^ 29).
Context (Sok : Forall (fun s => bytes_ok (se_name s) /\ good_align (se_align s)) (o_sections o)).
Context (Yok : Forall (fun y => bytes_ok (sy_name y)) (o_symbols o)).
Context (h : fhdr) (F : bytes) (Wr : ew_write o R p is_rela h = Ok F).
Notation st := (steps o is_rela p R nd).
Notation cs := (RFileHeader :: map fst st).
Notation st1 := (steps1 o p). Notation st2 := (steps2 o is_rela). Notation st3 := (steps3 o p). Notation st4 := (steps4 o p R).
Notation st5 := (steps5 nd). Notation st6 := (steps6 o is_rela p). Notation st7 := (steps7 o is_rela p R).
Notation Ord := (ordered o is_rela is64 p R nd P1 Few Sok Yok).
Notation X := (the_x o is64 p R h).
Notation r00 := (r_new is64 (o_endian o)).
Notation L := (locals o ++ globals o).

(** a step: the state before it exists *)
Lemma step_in s1 c w s2 : st = s1 ++ (c, w) :: s2 -> exists va ra v r1, r_run r00 (RFileHeader :: map fst s1) = Ok (va, ra) /\ r_exec ra c = Ok (v, r1) /\ here cs (RFileHeader :: map fst s1) c v (map fst s2) ra r1 R /\
  exists d, block (name_at R) R X (RFileHeader :: map fst s1) c v w d /\ (d <> [] \/ 0 <= v <= zlen F -> holds F v d).
Proof.
  intro Es. destruct (run_all _ _ _ _ _ _ P1) as (vs & Run). assert (Ec : cs = (RFileHeader :: map fst s1) ++ c :: map fst s2) by (rewrite Es, map_app; reflexivity).
  pose proof Run as Q. rewrite Ec in Q. apply run_split in Q. destruct Q as (va & ra & v & r1 & vb & H1 & H2 & H3 & _). exists va, ra, v, r1. split; [exact H1|]. split; [exact H2|].
  destruct (step_at o is_rela is64 p R nd P1 Few Sok Yok h F Wr _ _ _ _ _ _ _ _ Es H1 H2) as (A & _ & B). split; [exact A|exact B].
Qed.
Lemma shndx_ok : r_off R SShndx <> 0 -> zlen (x_shndx X) = r_num R SSymtab * 4 /\ r_num R SSymtab * 4 < 2 ^ 32.
Proof.
  intro H. destruct (run_all _ _ _ _ _ _ P1) as (vs & Run). destruct (written o is_rela is64 p R nd P1 Few Sok Yok h F Wr vs Run) as (ds & B & _).
  apply bw_blocks in B. exact (shndx_words _ _ _ _ _ Ord Run _ _ _ _ B H).
Qed.
Lemma table_in s1 c w s2 s name addr n : st = s1 ++ (c, w) :: s2 -> part_of c = Some (PTable s) -> r_off R s <> 0 ->
  exists d v, block (name_at R) R X (RFileHeader :: map fst s1) c v w d /\ v <> 0 /\ r_off R s = v /\ sh_size (slot_header R s name addr n) = zlen d /\ (d <> [] -> holds F v d).
Proof.
  intros Es Pc Ho. destruct (step_in _ _ _ _ Es) as (va & ra & v & r1 & H1 & H2 & Hh & d & B & Hd).
  assert (Nv : v <> 0).
  { pose proof (here_off _ _ _ _ _ _ _ _ s Hh Pc) as Q. pose proof (b_call _ _ _ _ _ _ _ _ Hh) as C. pose proof (h_after _ _ _ _ _ _ _ _ Hh) as A. pose proof (h_inv _ _ _ _ _ _ _ _ Hh) as I. pose proof (i_len _ _ I) as Ln.
    intro Z0. apply Ho. rewrite Q. clear - A Pc Z0 Ln. destruct c; cbn [part_of] in Pc; try discriminate; injection Pc as <-; cbn [after] in A; cbv zeta in A;
      repeat match goal with A : _ /\ _ |- _ => destruct A | A : _ \/ _ |- _ => destruct A | A : exists _, _ |- _ => destruct A end; subst; proj; try rewrite upd_same; lia || assumption || reflexivity. }
  exists d, v. split; [exact B|]. split; [exact Nv|].
  destruct (table_at _ _ _ _ _ _ _ _ _ _ _ _ _ name addr n Hh Pc B Nv) as (T1 & T2). { intros ->. apply shndx_ok. exact Ho. }
  split; [exact T1|]. split; [exact T2|]. intro Q. apply Hd. left. exact Q.
Qed.
(** * .symtab *)
Definition symtab_data : bytes := enc_null_sym (r_is64 R) ++ concat (map (fun y => fst (enc_sym (r_is64 R) (r_end R) y)) (wsyms o p R)).
Lemma split4 : st = (st1 ++ st2 ++ st3 ++ [(RIndex SSymtab, [])]) ++ (RSymtab SSymtab, symtab_writes o R p) :: st5 ++ st6 ++ st7.
Proof. unfold steps, steps4. rewrite <- !app_assoc. reflexivity. Qed.
Lemma symtab_on : r_off R SSymtab <> 0.
Proof.
  destruct (step_in _ _ _ _ split4) as (va & ra & v & r1 & H1 & H2 & Hh & d & B & Hd). rewrite (here_off _ _ _ _ _ _ _ _ SSymtab Hh eq_refl).
  assert (Nv : v <> 0). { unfold symtab_writes in B. inversion B; subst; try assumption; try discriminate. exfalso. match goal with Q : _ = SSymtab -> _ |- _ => rename Q into Zx | Q : SSymtab = SSymtab -> _ |- _ => rename Q into Zx end. specialize (Zx eq_refl). apply (f_equal zlen) in Zx. cbn [the_x x_shndx] in Zx. rewrite zlen_app, zlen_write_u in Zx. change (zlen (@nil Z)) with 0 in Zx. match type of Zx with context [zlen (concat ?l)] => pose proof (zlen_nonneg (concat l)) end. lia. }
  pose proof (h_after _ _ _ _ _ _ _ _ Hh) as A. cbn [after] in A. destruct A as (_ & [(_ & A & _)|(_ & _ & ->)]); [congruence|]. proj. rewrite upd_same. exact Nv.
Qed.
Lemma symtab_content name n : content F (slot_header R SSymtab name 0 n) symtab_data.
Proof.
  destruct (table_in _ _ _ _ SSymtab name 0 n split4 eq_refl symtab_on) as (d & v & B & Nv & T1 & T2 & Hd).
  assert (d = symtab_data).
  { unfold symtab_writes in B. inversion B; subst; try congruence; try discriminate. match goal with E : map _ _ = map _ _ |- _ => apply map_sym_inj in E; rewrite E end. reflexivity. }
  subst d. unfold content. cbn [slot_header sh_type sh_offset]. change (2 =? 8) with false. cbv iota. split; [exact T2|]. rewrite T1. apply Hd.
  intro Q. apply (f_equal zlen) in Q. unfold symtab_data, enc_null_sym in Q. rewrite zlen_app, zlen_zeros in Q by (destruct (r_is64 R); cbn [sym_size]; lia). change (zlen (@nil Z)) with 0 in Q. match type of Q with context [zlen (concat ?l)] => pose proof (zlen_nonneg (concat l)) end. destruct (r_is64 R); cbn [sym_size] in Q; lia.
Qed.
(** * String tables *)
Lemma data_len s : is_strs s -> r_off R s <> 0 -> zlen (r_data R s) = r_num R s /\ r_data R s <> [].
Proof.
  intros Hs Ho. pose proof (final_inv o is_rela is64 p R nd P1 Few Sok Yok) as I. split; [exact (i_data _ _ I s Hs Ho)|].
  destruct (run_all _ _ _ _ _ _ P1) as (vs & Run). destruct (data_null _ _ _ _ _ s Ord Run Hs Ho) as (d & ->). discriminate.
Qed.
Lemma split5 : st = (st1 ++ st2 ++ st3 ++ st4 ++ (if nd then [(RIndex SShndx, [])] else []) ++ [(RShndx, [WSymtabShndx]); (RIndex SStrtab, [])]) ++ (RStrings SStrtab, [WStrings SStrtab]) :: st6 ++ st7.
Proof. unfold steps, steps5. rewrite <- !app_assoc. reflexivity. Qed.
Lemma split7 : st = (st1 ++ st2 ++ st3 ++ st4 ++ st5 ++ st6 ++ [(RIndex SShstrtab, [])]) ++ (RStrings SShstrtab, [WStrings SShstrtab]) :: [(RSectionHeaders, WNullSectionHeader :: hdr_calls o R p is_rela)].
Proof. unfold steps, steps7. rewrite <- !app_assoc. reflexivity. Qed.
Lemma split5x : st = (st1 ++ st2 ++ st3 ++ st4 ++ (if nd then [(RIndex SShndx, [])] else [])) ++ (RShndx, [WSymtabShndx]) :: [(RIndex SStrtab, []); (RStrings SStrtab, [WStrings SStrtab])] ++ st6 ++ st7.
Proof. unfold steps, steps5. rewrite <- !app_assoc. reflexivity. Qed.
Lemma strings_content s1 s w s2 name n : st = s1 ++ (RStrings s, [WStrings s]) :: s2 -> s = SStrtab \/ s = SShstrtab -> r_off R s <> 0 -> w = s -> content F (slot_header R s name 0 n) (r_data R s).
Proof.
  intros Es D Ho _. destruct (table_in _ _ _ _ s name 0 n Es eq_refl Ho) as (d & v & B & Nv & T1 & T2 & Hd). assert (Hs : is_strs s) by (destruct D as [-> | ->]; cbn; tauto).
  assert (d = r_data R s) by (inversion B; subst; try congruence; try reflexivity; try discriminate). subst d.
  unfold content. assert ((sh_type (slot_header R s name 0 n) =? 8) = false) as -> by (destruct D as [-> | ->]; reflexivity). split; [exact T2|].
  assert (sh_offset (slot_header R s name 0 n) = r_off R s) as -> by (destruct D as [-> | ->]; reflexivity). rewrite T1. apply Hd. apply (data_len s Hs Ho).
Qed.
Lemma strtab_content name n : content F (slot_header R SStrtab name 0 n) (r_data R SStrtab).
Proof. apply (strings_content _ _ SStrtab _ name n split5); [left; reflexivity|exact (strtab_on o is_rela is64 p R nd P1 Few Sok Yok)|reflexivity]. Qed.
Lemma shstrtab_content name n : content F (slot_header R SShstrtab name 0 n) (r_data R SShstrtab).
Proof. apply (strings_content _ _ SShstrtab _ name n split7); [right; reflexivity|exact (shstr_on o is_rela is64 p R nd P1 Few Sok Yok)|reflexivity]. Qed.
(** * .symtab_shndx *)
Lemma nd_on : nd = true -> r_off R SShndx <> 0.
Proof.
  intro Hn. destruct (step_in _ _ _ _ split5x) as (va & ra & v & r1 & H1 & H2 & Hh & _). rewrite (here_off _ _ _ _ _ _ _ _ SShndx Hh eq_refl).
  assert (Nd : r_need ra SShndx = true).
  { pose proof (p1_tabs _ _ _ _ _ _ P1) as T. pose proof (p1_nd _ _ _ _ _ _ P1) as An. assert (Ex : (if nd then [RIndex SShndx] else []) = [RIndex SShndx]) by (rewrite Hn; reflexivity). rewrite Ex in T. clear Ex. rewrite run_app in T. mb T. destruct a as [v1 s1]. cbn [bind] in T. mb T. destruct a as [v2 s2].
    assert (Em : ztake 2 (p1_mid _ _ _ _ _ _ P1) = v1). { assert (p1_mid _ _ _ _ _ _ P1 = v1 ++ v2) as -> by congruence. apply run_len in E. change (zlen [RIndex SSymtab; RSymtab SSymtab]) with 2 in E. apply ztake_app_eq. lia. }
    rewrite Em in An. specialize (An s1 ltac:(first [exact E|reflexivity])). destruct (run3 _ _ _ _ _ _ P1) as (v3 & R3).
    cbn [app] in E0. apply run_split with (a := [RIndex SShndx]) in E0. destruct E0 as (u1 & u2 & u3 & u4 & u5 & U1 & _).
    assert (u2 = ra).
    { assert (El : RFileHeader :: map fst (st1 ++ st2 ++ st3 ++ st4 ++ (if nd then [(RIndex SShndx, [])] else [])) = ((RFileHeader :: map fst st1) ++ map fst st2 ++ map fst st3) ++ [RIndex SSymtab; RSymtab SSymtab] ++ [RIndex SShndx]) by (rewrite Hn, !map_app; cbn [app map fst]; rewrite <- !app_assoc; reflexivity).
      rewrite El in H1. assert (Q : r_run r00 (((RFileHeader :: map fst st1) ++ map fst st2 ++ map fst st3) ++ [RIndex SSymtab; RSymtab SSymtab] ++ [RIndex SShndx]) = Ok (v3 ++ v1 ++ u1, u2)) by (eapply run_cat; [exact R3|]; eapply run_cat; [first [exact E|eassumption]|exact U1]). congruence. }
    subst u2. refine (need_run _ _ _ _ _ U1 _). congruence. }
  pose proof (h_after _ _ _ _ _ _ _ _ Hh) as A. pose proof (h_inv _ _ _ _ _ _ _ _ Hh) as I. pose proof (i_len _ _ I). cbn [after] in A. destruct A as (_ & [(Q & _)|(_ & A & ->)]); [congruence|]. proj. rewrite upd_same.
  pose proof (num_nonneg _ _ SSymtab I (or_introl eq_refl)). apply reserved_ge in A; [lia|apply good_4|lia|lia].
Qed.
Definition xwords : list Z := 0 :: map (fun y => match snd (enc_sym (r_is64 R) (r_end R) y) with Some n => n | None => 0 end) (wsyms o p R).
Lemma xwords_eq : x_shndx X = concat (map (write_u (r_end R) 4) xwords).
Proof. cbn [the_x x_shndx]. unfold xwords. cbn [map concat]. f_equal. rewrite map_map. reflexivity. Qed.
Lemma shndx_content name n : nd = true -> content F (slot_header R SShndx name 0 n) (concat (map (write_u (r_end R) 4) xwords)).
Proof.
  intro Hn. pose proof (nd_on Hn) as Ho. destruct (table_in _ _ _ _ SShndx name 0 n split5x eq_refl Ho) as (d & v & B & Nv & T1 & T2 & Hd).
  assert (d = x_shndx X) by (inversion B; subst; try congruence; try reflexivity; try discriminate). subst d. rewrite <- xwords_eq. unfold content. cbn [slot_header sh_type sh_offset]. change (18 =? 8) with false. cbv iota. split; [exact T2|]. rewrite T1. apply Hd.
  rewrite xwords_eq. unfold xwords. cbn [map concat]. intro Q. apply (f_equal zlen) in Q. rewrite zlen_app, zlen_write_u in Q. change (zlen (@nil Z)) with 0 in Q. match type of Q with context [zlen (concat ?l)] => pose proof (zlen_nonneg (concat l)) end. lia.
Qed.
(** without it no symbol needs an extended index *)
Lemma small_index : nd = false -> Forall (fun q => match sy_section (snd q) with YSec id => sidx (pl_secs p) id < 65280 | _ => True end) L.
Proof.
  intro Hn. apply Forall_forall. intros q Hq. destruct (sy_section (snd q)) as [| | | |id] eqn:Es; try exact I. destruct (Z.lt_ge_cases (sidx (pl_secs p) id) 65280) as [|G]; [assumption|]. exfalso.
  destruct (run2 _ _ _ _ _ _ P1) as (v2 & R2). destruct (run3 _ _ _ _ _ _ P1) as (v3 & R3). pose proof (p1_tabs _ _ _ _ _ _ P1) as T. rewrite run_app in T. mb T. destruct a as [v1 s1]. cbn [bind] in T. mb T. destruct a as [vb s2].
  assert (Em : ztake 2 (p1_mid _ _ _ _ _ _ P1) = v1). { assert (p1_mid _ _ _ _ _ _ P1 = v1 ++ vb) as -> by congruence. apply run_len in E. change (zlen [RIndex SSymtab; RSymtab SSymtab]) with 2 in E. apply ztake_app_eq. lia. }
  pose proof (p1_nd _ _ _ _ _ _ P1 s1) as An. rewrite Em in An. specialize (An ltac:(first [exact E|reflexivity])).
  apply in_split in Hq. destruct Hq as (l1 & l2 & El). rewrite app_assoc in R3. rewrite run_app, R2 in R3. cbn [bind] in R3. mb R3. destruct a as [v4 s4]. assert (s4 = p1_r6 _ _ _ _ _ _ P1) by congruence. subst s4.
  rewrite (cmds3 o p), El, map_app in E1. cbn [map app] in E1. rewrite <- app_assoc in E1. change (RNullSymbol SSymtab :: map (symbol_cmd (pl_secs p)) l1 ++ ?m) with ((RNullSymbol SSymtab :: map (symbol_cmd (pl_secs p)) l1) ++ m) in E1. cbn [app] in E1.
  change (RNullSymbol SSymtab :: map (symbol_cmd (pl_secs p)) l1 ++ symbol_cmd (pl_secs p) q :: ?m) with ((RNullSymbol SSymtab :: map (symbol_cmd (pl_secs p)) l1) ++ symbol_cmd (pl_secs p) q :: m) in E1.
  apply run_split in E1. destruct E1 as (u1 & u2 & u3 & u4 & u5 & _ & U2 & U3 & _).
  assert (N4 : r_need u4 SShndx = true).
  { apply exec_after in U2. unfold symbol_cmd in U2. rewrite Es in U2. cbn [after] in U2. destruct U2 as (_ & _ & _ & _ & ->). cbv zeta. change SHN_LORESERVE with 65280. destruct (Z.leb_spec 65280 (sidx (pl_secs p) id)); [|lia]. proj. apply upd_same. }
  pose proof (need_run _ _ _ _ _ U3 N4) as N5. assert (N6 : r_need s1 SShndx = true) by (refine (need_run _ _ _ _ _ _ N5); eassumption). congruence.
Qed.
(** * The section headers *)
Definition hlist (n1 n2 n3 n4 : Z) : list shdr :=
  map (comdat_hdr R p) (combine (o_comdats o) (pl_comdats p)) ++ flat_map (section_hdrs R is_rela) (combine (combine (o_sections o) (pl_secs p)) (pl_relocs p)) ++
  [slot_header R SSymtab n1 0 (pl_local p)] ++ (if nd then [slot_header R SShndx n2 0 0] else []) ++ [slot_header R SStrtab n3 0 0; slot_header R SShstrtab n4 0 0].
Definition slot_named (s : slot) (n : Z) : Prop := u32_ok n /\ string_at (r_data R SShstrtab) n (slot_name s).
Lemma hcalls : header_calls (flat_map snd st) = hdr_calls o R p is_rela.
Proof.
  pose proof (writes_eq o is_rela is64 p R nd P1 h) as Ew. unfold all_writes in Ew. cbn [app] in Ew. injection Ew as Ew. rewrite Ew. rewrite !hdr_app.
  assert (Z1 : forall X (f : X -> list wcmd) l, (forall x, header_calls (f x) = []) -> header_calls (flat_map f l) = []).
  { intros Y f l H. induction l as [|x l IH]; [reflexivity|]. cbn [flat_map]. rewrite hdr_app, H, IH. reflexivity. }
  assert (Z2 : forall X (f : X -> wcmd) l, (forall x, header_calls [f x] = []) -> header_calls (map f l) = []).
  { intros Y f l H. induction l as [|x l IH]; [reflexivity|]. cbn [map]. change (f x :: map f l) with ([f x] ++ map f l). rewrite hdr_app, H, IH. reflexivity. }
  rewrite Z1 by (intro c; unfold comdat_wr; change (WComdatHeader :: ?l) with ([WComdatHeader] ++ l); rewrite hdr_app, Z2 by reflexivity; reflexivity).
  rewrite Z1 by reflexivity. cbn [app]. change (WNullSymbol SSymtab :: map (WSymbol SSymtab) (map (sym_of R p) L) ++ ?m) with ([WNullSymbol SSymtab] ++ map (WSymbol SSymtab) (map (sym_of R p) L) ++ m). rewrite !hdr_app, Z2 by reflexivity.
  change (WSymtabShndx :: WStrings SStrtab :: ?l) with ([WSymtabShndx; WStrings SStrtab] ++ l). rewrite !hdr_app. rewrite Z1 by (intro s; destruct (has_relocs s); [|reflexivity]; unfold reloc_wr; change (WAlignRelocation :: ?l) with ([WAlignRelocation] ++ l); rewrite hdr_app, Z2 by reflexivity; reflexivity).
  change (WStrings SShstrtab :: WNullSectionHeader :: ?l) with ([WStrings SShstrtab; WNullSectionHeader] ++ l). rewrite hdr_app.
  transitivity (header_calls (hdr_calls o R p is_rela)); [reflexivity|]. unfold hdr_calls. rewrite !hdr_app. f_equal; [|f_equal; [|f_equal]].
  - induction (combine (o_comdats o) (pl_comdats p)) as [|x l IH]; [reflexivity|]. cbn [map]. change (WSectionHeader ?a :: ?l) with ([WSectionHeader a] ++ l). rewrite hdr_app, IH. reflexivity.
  - induction (flat_map (section_hdrs R is_rela) (combine (combine (o_sections o) (pl_secs p)) (pl_relocs p))) as [|x l IH]; [reflexivity|]. cbn [map]. change (WSectionHeader ?a :: ?l) with ([WSectionHeader a] ++ l). rewrite hdr_app, IH. reflexivity.
  - destruct (r_id R SShndx); reflexivity.
Qed.
End Tabs.
