(** The version table read back from what a Builder writes. *)
From Verif Require Rel_proofs.
From Verif Require Import Core_proofs Str_proofs Tab_proofs Build_proofs Ver_spec Ver_proofs Bver_spec Bver_proofs Bver2_proofs.

(** * The dynamic string table *)
Lemma dynstr_finds L : Forall str_ok L -> zlen L <= 2 ^ 32 ->
  exists ids t res w t', adds st_new L = (Ok ids, t) /\ st_write t 1 = (res, w, t') /\
    res = (if 1 + zlen w <? 2 ^ 32 then Ok (1 + zlen w) else Err) /\
    (forall n, res = Ok n -> Forall (fun s => exists o, str_offset t' s = Ok o /\ u32_ok o /\ strtab_get (Some ([0] ++ w)) 0 n o = Ok s) L).
Proof.
  intros HL Hz. destruct (adds_spec L st_new tinv_new HL) as (ids & t & E & Ht & _ & Hin & HF & Ho & Hb & Hlen); [change (zlen (st_strings st_new)) with 0; lia|].
  destruct (write_merge t [0] Ht) as (ws & w & t' & Ew & _ & _ & _ & Hst & _ & _ & _ & Hloc); [rewrite Ho; reflexivity|left; exists []; reflexivity|].
  change (zlen [0]) with 1 in *. exists ids, t. eexists _, w, t'. split; [exact E|]. split; [exact Ew|]. split; [reflexivity|].
  intros n Hn. destruct (Z.ltb_spec (1 + zlen w) (2 ^ 32)) as [Hs|]; [|discriminate]. injection Hn as <-. apply Forall_forall. intros s Hs'. assert (Hi : In s (st_strings t)) by (apply Hin; right; exact Hs').
  destruct (index_of s (st_strings t)) as [i|] eqn:Ei; [|apply index_of_None in Ei; contradiction]. apply index_of_Some in Ei as Eg. pose proof (zget_Some_lt _ _ _ Eg) as Hr.
  destruct (Hloc Hs i s Eg) as (off & Eoff & Hoff & Hl). exists off. change (zlen (st_strings st_new)) with 0 in Hlen. split; [|split; [exact Hoff|]].
  - unfold str_offset, st_get_id, st_get_offset. rewrite Hst, Ei. cbn [bind]. unfold wrap_u. rewrite Z.mod_small by lia. rewrite Eoff. reflexivity.
  - pose proof (located_get [] ([0] ++ w) [] off s Hl) as G. cbn [app] in G. change (zlen (@nil Z)) with 0 in G. rewrite app_nil_r in G. change (1 + zlen w) with (1 + zlen w). rewrite zlen_cons in G. apply G; [|lia|lia].
    rewrite Forall_forall in HL. apply HL, Hs'.
Qed.

(** * The entries *)
Definition def_ent (x : Z * list bytes * Z) : list (Z * version) :=
  let '(id, names, flags) := x in
  if Z.odd flags then [] else [(id, {| v_name := hd [] names; v_hash := elf_hash (hd [] names); v_valid := true; v_file := None |})].
Definition need_ent (fname : bytes) (x : Z * bytes * Z) : Z * version :=
  let '(id, name, _) := x in (id, {| v_name := name; v_hash := elf_hash name; v_valid := true; v_file := Some fname |}).
Lemma live_defs_In k l x : In x (live_defs k l) <-> let '(id, names, flags) := x in exists v, zget l (id - k) = Some v /\ v_del v = false /\ v_data v = VDef names flags.
Proof.
  revert k. induction l as [|v l IH]; intros k; destruct x as [[id names] flags]; cbn [live_defs].
  { split; [intros []|]. intros (v & E & _). apply zget_Some_lt in E. change (zlen (@nil bver)) with 0 in E. lia. }
  rewrite in_app_iff, IH. split.
  - intros [H|(w & E & H)].
    + destruct (v_del v) eqn:Ed; [destruct H|]. destruct (v_data v) as [ns fl|] eqn:Ev; [|destruct H]. destruct H as [H|[]]. injection H as -> -> ->. exists v. rewrite Z.sub_diag. split; [reflexivity|]. split; assumption.
    + exists w. pose proof (zget_Some_lt _ _ _ E). rewrite zget_S by lia. replace (id - k - 1) with (id - (k + 1)) by lia. split; [exact E|exact H].
  - intros (w & E & Hd & Hv). pose proof (zget_Some_lt _ _ _ E). destruct (Z.eq_dec id k) as [->|Hne].
    + left. rewrite Z.sub_diag in E. injection E as ->. rewrite Hd, Hv. left. reflexivity.
    + right. exists w. rewrite zget_S in E by lia. replace (id - (k + 1)) with (id - k - 1) by lia. split; [exact E|]. split; assumption.
Qed.
Lemma live_needs_In k f l x : In x (live_needs k f l) <-> let '(id, name, flags) := x in exists v, zget l (id - k) = Some v /\ v_del v = false /\ v_data v = VNeed f name flags.
Proof.
  revert k. induction l as [|v l IH]; intros k; destruct x as [[id name] flags]; cbn [live_needs].
  { split; [intros []|]. intros (v & E & _). apply zget_Some_lt in E. change (zlen (@nil bver)) with 0 in E. lia. }
  rewrite in_app_iff, IH. split.
  - intros [H|(w & E & H)].
    + destruct (v_del v) eqn:Ed; [destruct H|]. destruct (v_data v) as [|g n fl] eqn:Ev; [destruct H|]. destruct (Z.eqb_spec g f); [|destruct H]. destruct H as [H|[]]. injection H as -> -> ->. subst g. exists v. rewrite Z.sub_diag. split; [reflexivity|]. split; assumption.
    + exists w. pose proof (zget_Some_lt _ _ _ E). rewrite zget_S by lia. replace (id - k - 1) with (id - (k + 1)) by lia. split; [exact E|exact H].
  - intros (w & E & Hd & Hv). pose proof (zget_Some_lt _ _ _ E). destruct (Z.eq_dec id k) as [->|Hne].
    + left. rewrite Z.sub_diag in E. injection E as ->. rewrite Hd, Hv, Z.eqb_refl. left. reflexivity.
    + right. exists w. rewrite zget_S in E by lia. replace (id - (k + 1)) with (id - k - 1) by lia. split; [exact E|]. split; assumption.
Qed.
Lemma live_files_In k l fid name : In (fid, name) (live_files k l) <-> exists f, zget l (fid - k) = Some f /\ f_del f = false /\ f_name f = name.
Proof.
  revert k. induction l as [|f l IH]; intros k; cbn [live_files].
  { split; [intros []|]. intros (v & E & _). apply zget_Some_lt in E. change (zlen (@nil bfile)) with 0 in E. lia. }
  rewrite in_app_iff, IH. split.
  - intros [H|(w & E & H)].
    + destruct (f_del f) eqn:Ed; [destruct H|]. destruct H as [H|[]]. injection H as -> <-. exists f. rewrite Z.sub_diag. split; [reflexivity|]. split; [assumption|reflexivity].
    + exists w. pose proof (zget_Some_lt _ _ _ E). rewrite zget_S by lia. replace (fid - k - 1) with (fid - (k + 1)) by lia. split; [exact E|exact H].
  - intros (w & E & Hd & Hv). pose proof (zget_Some_lt _ _ _ E). destruct (Z.eq_dec fid k) as [->|Hne].
    + left. rewrite Z.sub_diag in E. injection E as ->. rewrite Hd, Hv. left. reflexivity.
    + right. exists w. rewrite zget_S in E by lia. replace (fid - (k + 1)) with (fid - k - 1) by lia. split; [exact E|]. split; assumption.
Qed.
Definition entries (base : option bytes) (files : list bfile) (vers : list bver) : list (Z * version) :=
  concat (map def_ent (all_defs base vers)) ++ concat (map (fun x => map (need_ent (snd x)) (live_needs 2 (fst x) vers)) (live_files 0 files)).
Lemma entries_In base files vers i v : Forall (ver_ok files) vers -> 2 <= i -> In (i, v) (entries base files vers) <-> read_version files vers i = Ok (Some v).
Proof.
  intros Hv Hi. unfold entries, read_version. rewrite in_app_iff, !in_concat. split.
  - intros [(l & Hl & H)|(l & Hl & H)]; apply in_map_iff in Hl as (x & <- & Hx).
    + unfold all_defs in Hx. apply in_app_or in Hx as [Hx|Hx].
      { destruct base as [b|]; [destruct Hx as [<-|[]]; destruct H|destruct Hx]. }
      destruct x as [[id names] flags]. apply live_defs_In in Hx as (w & E & Hd & Ew). unfold def_ent in H. destruct (Z.odd flags) eqn:Eo; [destruct H|]. destruct H as [H|[]]. injection H as -> <-.
      rewrite E, Hd, Ew, Eo. reflexivity.
    + destruct x as [fid fname]. cbn [fst snd] in H. apply in_map_iff in H as ([[id name] flags] & H & Hx'). cbn [need_ent] in H. injection H as -> <-.
      apply live_needs_In in Hx' as (w & E & Hd & Ew). apply live_files_In in Hx as (f & Ef & _ & <-). rewrite Z.sub_0_r in Ef. rewrite E, Hd, Ew, Ef. reflexivity.
  - destruct (zget vers (i - 2)) as [w|] eqn:E; [|discriminate]. destruct (v_del w) eqn:Hd; [discriminate|]. destruct (v_data w) as [names flags|file name flags] eqn:Ew.
    + destruct (Z.odd flags) eqn:Eo; [discriminate|]. intro H. injection H as <-. left. exists (def_ent (i, names, flags)). split.
      * apply in_map. unfold all_defs. apply in_or_app. right. apply live_defs_In. exists w. split; [exact E|]. split; assumption.
      * cbn [def_ent]. rewrite Eo. left. reflexivity.
    + destruct (zget files file) as [f|] eqn:Ef; [|discriminate]. intro H. injection H as <-. right.
      assert (Hf : f_del f = false).
      { rewrite Forall_forall in Hv. pose proof (Hv w (zget_In _ _ _ E) Hd) as H. rewrite Ew in H. destruct H as (_ & g & Eg & Dg). congruence. }
      exists (map (need_ent (f_name f)) (live_needs 2 file vers)). split.
      * apply in_map_iff. exists (file, f_name f). split; [reflexivity|]. apply live_files_In. exists f. rewrite Z.sub_0_r. split; [exact Ef|]. split; [exact Hf|reflexivity].
      * apply in_map_iff. exists (i, name, flags). split; [reflexivity|]. apply live_needs_In. exists w. split; [exact E|]. split; assumption.
Qed.
Lemma lookup_last_In l i : match lookup_last l i with Some v => In (i, v) l | None => forall v, ~ In (i, v) l end.
Proof.
  induction l as [|[j w] l IH]; cbn [lookup_last]; [intros v []|]. destruct (lookup_last l i); [right; exact IH|]. destruct (Z.eqb_spec j i) as [->|Hn]; [left; reflexivity|].
  intros v [H|H]; [congruence|]. eapply IH, H.
Qed.
Lemma read_version_cases files vers i : read_version files vers i = Err \/ exists v, read_version files vers i = Ok (Some v).
Proof.
  unfold read_version. destruct (zget vers (i - 2)) as [w|]; [|left; reflexivity]. destruct (v_del w); [left; reflexivity|]. destruct (v_data w) as [names flags|file name flags].
  - destruct (Z.odd flags); [left; reflexivity|right; eexists; reflexivity].
  - destruct (zget files file); [right; eexists; reflexivity|left; reflexivity].
Qed.

Section Strings.
Context (e : endian) (str : bytes -> out Z) (strings : Z -> out bytes) (P : bytes -> Prop).
Definition inverse : Prop := forall s o, P s -> str s = Ok o -> strings o = Ok s.
Lemma def_entry_ok it d x : inverse -> reads_def e it d -> view_of_def str x d -> snd (fst x) <> [] -> P (hd [] (snd (fst x))) -> (2 <= fst (fst x) \/ Z.odd (snd x) = true) -> def_entry e strings it (def_ent x).
Proof.
  intros Hinv. destruct it as [vd a], x as [[id names] flags]. cbn [fst snd]. intros (R1 & R2 & R3 & R4 & R5 & auxs & st & R & Em) (V1 & V2 & V3 & V4 & F) Hne HP Hid. unfold def_ent. destruct (Z.odd flags) eqn:Eo.
  - apply de_skip. left. congruence.
  - destruct names as [|n names]; [contradiction|]. cbn [hd] in *.
    assert (Ei : vd_ndx vd = id) by congruence. assert (Eh : vd_hash vd = elf_hash n) by congruence. assert (E2 : 2 <= vd_ndx vd) by (destruct Hid; [lia|congruence]).
    assert (Efl : Z.odd (vd_flags vd) = false) by congruence. rewrite <- Ei, <- Eh.
    destruct (dv_names d) as [|o os]; [inversion F|]. assert (Eo' : str n = Ok o) by (inversion F; assumption). destruct auxs as [|x auxs]; [discriminate|]. cbn [map] in Em. injection Em as Ex Em.
    apply (de_name e strings vd a x n); [exact Efl|exact E2| |].
    + inversion R; subst. match goal with H : verdaux_next e a = _ |- _ => rewrite H end. reflexivity.
    + rewrite Ex. apply Hinv; assumption.
Qed.
Lemma naux_entries_ok vn fname auxs xa : inverse -> strings (vn_file vn) = Ok fname ->
  forall xs, Forall2 (view_of_naux str) xs xa -> map (fun x => {| nv_flags := vna_flags x; nv_index := vna_other x; nv_name := vna_name x; nv_hash := vna_hash x |}) auxs = xa ->
  Forall (fun x => P (snd (fst x)) /\ 2 <= fst (fst x) < 2 ^ 15) xs -> Forall2 (naux_entry strings vn) auxs (map (fun x => [need_ent fname x]) xs).
Proof.
  intros Hinv Hf. revert xa. induction auxs as [|a auxs IH]; intros xa xs F Em Hx; cbn [map] in Em; subst xa; inversion F as [|x ? xs' ? V F']; subst; cbn [map]; constructor.
  - pose proof (Forall_inv Hx) as [HP Hi]. destruct x as [[id name] flags]. cbn [view_of_naux nv_flags nv_index nv_name nv_hash fst snd] in *. destruct V as (_ & Ei & Eh & Es). unfold need_ent.
    assert (Em : vna_other a mod 2 ^ 15 = id) by (rewrite Z.mod_small; lia). rewrite <- Em at 1. rewrite <- Eh. apply ne_name; [lia|apply Hinv; assumption|exact Hf].
  - eapply IH; [exact F'|reflexivity|]. apply Forall_inv_tail in Hx. exact Hx.
Qed.
Lemma need_entry_ok vers it n x : inverse -> reads_need e it n -> view_of_need str vers x n -> P (snd x) ->
  Forall (fun y => P (snd (fst y)) /\ 2 <= fst (fst y) < 2 ^ 15) (live_needs 2 (fst x) vers) -> need_entry e strings it (map (need_ent (snd x)) (live_needs 2 (fst x) vers)).
Proof.
  intros Hinv. destruct it as [vn a], x as [fid fname]. cbn [fst snd]. intros (R1 & R2 & R3 & auxs & st & R & Em & _) (V1 & V2 & F) HP Hx.
  exists auxs, st, (map (fun y => [need_ent fname y]) (live_needs 2 fid vers)). cbn [fst snd]. split; [exact R|]. split.
  - eapply naux_entries_ok; [exact Hinv|rewrite R2; apply Hinv; assumption|exact F|exact Em|exact Hx].
  - clear. induction (live_needs 2 fid vers) as [|y l IH]; [reflexivity|]. cbn [map concat app]. rewrite IH at 1. reflexivity.
Qed.
End Strings.

Lemma F2_compose {A B C D} (R : A -> B -> Prop) (V : C -> B -> Prop) (E : A -> D -> Prop) (g : C -> D) its views xs :
  Forall2 R its views -> Forall2 V xs views -> (forall it v x, In x xs -> R it v -> V x v -> E it (g x)) -> Forall2 E its (map g xs).
Proof.
  intros H. revert xs. induction H as [|it v its views Hr _ IH]; intros xs F HE; inversion F as [|x ? xs' ? Hv F']; subst; cbn [map]; constructor.
  - apply (HE it v x); [left; reflexivity|exact Hr|exact Hv].
  - apply IH; [exact F'|]. intros; eapply HE; [right|..]; eassumption.
Qed.
Lemma incl_concat_names l x s : In x l -> In s (snd (fst x)) -> In s (def_names l).
Proof. intros Hx Hs. unfold def_names. apply in_concat. exists (snd (fst x)). split; [|exact Hs]. apply in_map_iff. exists x. split; [reflexivity|exact Hx]. Qed.

Lemma runs_fun {S A} (next : S -> out (option A) * S) st l er st' : runs next st l er st' -> forall l2 er2 st2, runs next st l2 er2 st2 -> l = l2.
Proof. intros H l2 er2 st2 H2. destruct (Rel_proofs.runs_det _ _ _ _ _ H _ _ _ H2) as (-> & _). reflexivity. Qed.
Lemma F2_fun {A B} (R : A -> B -> Prop) : (forall a b b', R a b -> R a b' -> b = b') -> forall l m m', Forall2 R l m -> Forall2 R l m' -> m = m'.
Proof. intros HR l m m' H. revert m'. induction H as [|a b l m H _ IH]; intros m' H'; inversion H'; subst; [reflexivity|]. f_equal; [eapply HR; eassumption|apply IH; assumption]. Qed.
Lemma def_entry_fun e strings it l l' : def_entry e strings it l -> def_entry e strings it l' -> l = l'.
Proof.
  intros H H'. inversion H; subst; inversion H'; subst; try reflexivity; try congruence.
  all: try (match goal with H : _ \/ _ |- _ => destruct H; [congruence|lia] end).
  all: match goal with Ha : fst _ = Ok (Some ?x), Hb : fst _ = Ok (Some ?y) |- _ => assert (x = y) by congruence; subst y end.
  all: do 3 f_equal; congruence.
Qed.
Lemma naux_entry_fun strings vn a l l' : naux_entry strings vn a l -> naux_entry strings vn a l' -> l = l'.
Proof. intros H H'. inversion H; subst; inversion H'; subst; try reflexivity; try lia. assert (name = name0) by congruence. assert (file = file0) by congruence. subst. reflexivity. Qed.
Lemma need_entry_fun e strings it l l' : need_entry e strings it l -> need_entry e strings it l' -> l = l'.
Proof.
  intros (auxs & st & ls & R & F & ->) (auxs' & st' & ls' & R' & F' & ->). pose proof (runs_fun _ _ _ _ _ R _ _ _ R') as <-. f_equal. eapply F2_fun; [|exact F|exact F']. intros; eapply naux_entry_fun; eassumption.
Qed.
Lemma table_entries_fun e vd vn strings l l' : table_entries e (Some vd) (Some vn) strings l -> table_entries e (Some vd) (Some vn) strings l' -> l = l'.
Proof.
  intros (d & n & ld & ln & R1 & R2 & F1 & F2 & ->) (d' & n' & ld' & ln' & R1' & R2' & F1' & F2' & ->). cbn [opt_runs] in *.
  pose proof (runs_fun _ _ _ _ _ R1 _ _ _ R1') as <-. pose proof (runs_fun _ _ _ _ _ R2 _ _ _ R2') as <-. f_equal; f_equal.
  - eapply F2_fun; [|exact F1|exact F1']. intros; eapply def_entry_fun; eassumption.
  - eapply F2_fun; [|exact F2|exact F2']. intros; eapply need_entry_fun; eassumption.
Qed.

Lemma version_table_written e base files vers others : Forall (ver_ok files) vers -> 2 + zlen vers - 1 <= 32767 -> zlen files < 2 ^ 16 ->
  exists c, count_all base files vers = Ok c /\
    (Forall str_ok (others ++ vc_strs c) -> zlen (others ++ vc_strs c) <= 2 ^ 32 ->
     exists ids t w t' res, adds st_new (others ++ vc_strs c) = (Ok ids, t) /\ st_write t 1 = (res, w, t') /\
       (forall n, res = Ok n -> exists vd vn, w_verdef_section e (str_offset t') base vers c = Ok vd /\ w_verneed_section e (str_offset t') vers files c = Ok vn /\
          forall versyms, exists vt, vt_parse e versyms (Some vd) (Some vn) (strtab_get (Some ([0] ++ w)) 0 n) = Ok vt /\ vt_symbols vt = versyms /\
            forall i, 2 <= i -> vt_version vt i = read_version files vers i)).
Proof.
  intros Hv Hn Hfz. destruct (count_all_ok base files vers Hv Hn Hfz) as (c & E & _ & _ & _ & _ & _ & _ & Ib & Id & In_ & If). cbv zeta in *.
  exists c. split; [exact E|]. intros HL Hz. destruct (dynstr_finds _ HL Hz) as (ids & t & res & w & t' & Ea & Ew & _ & Hfind). exists ids, t, w, t', res. split; [exact Ea|]. split; [exact Ew|].
  intros n Hres. specialize (Hfind n Hres). rewrite Forall_forall in Hfind. set (str := str_offset t'). set (strings := strtab_get (Some ([0] ++ w)) 0 n).
  assert (Hfs : finds str (vc_strs c)) by (apply Forall_forall; intros s Hs; destruct (Hfind s) as (o & E1 & E2 & _); [apply in_or_app; right; exact Hs|]; exists o; split; assumption).
  assert (Hinv : inverse str strings (fun s => In s (vc_strs c))).
  { intros s o Hs Eo. destruct (Hfind s) as (o' & E1 & _ & E3); [apply in_or_app; right; exact Hs|]. unfold str in Eo. rewrite E1 in Eo. injection Eo as <-. exact E3. }
  destruct (verdef_section e str base files vers Hv Hn Hfz) as (c1 & E1 & H1). rewrite E in E1. injection E1 as <-. destruct (H1 Hfs) as (vd & its & views & Wd & Bd & _ & _ & Rd & FR & FV).
  destruct (verneed_section e str base files vers Hv Hn Hfz) as (c1 & E1 & H2). rewrite E in E1. injection E1 as <-. destruct (H2 Hfs) as (vn & nits & nviews & Wn & Bn & _ & _ & Rn & NR & NV).
  exists vd, vn. split; [exact Wd|]. split; [exact Wn|]. intro versyms.
  assert (Hns : forall o, strings o <> Panic) by (intro o; apply strtab_get_no_panic).
  pose proof (vt_parse_spec e versyms (Some vd) (Some vn) strings Bd Bn Hns) as HT.
  assert (TE : table_entries e (Some vd) (Some vn) strings (entries base files vers)).
  { exists its, nits, (map def_ent (all_defs base vers)), (map (fun x => map (need_ent (snd x)) (live_needs 2 (fst x) vers)) (live_files 0 files)).
    split; [exact Rd|]. split; [exact Rn|]. split; [|split; [|reflexivity]].
    - eapply F2_compose; [exact FR|exact FV|]. intros it v x Hx Hr Hvx. unfold all_defs in Hx. apply in_app_or in Hx.
      assert (Hsp : snd (fst x) <> [] /\ In (hd [] (snd (fst x))) (vc_strs c) /\ (2 <= fst (fst x) \/ Z.odd (snd x) = true)).
      { destruct Hx as [Hx|Hx].
        - destruct base as [b|]; [|destruct Hx]. destruct Hx as [<-|[]]. cbn [fst snd hd]. split; [discriminate|]. split; [apply Ib; reflexivity|right; reflexivity].
        - assert (Hin := incl_concat_names _ x (hd [] (snd (fst x))) Hx). destruct x as [[id names] flags]. apply live_defs_In in Hx as (u & Eu & Du & Vu). cbn [fst snd] in *.
          rewrite Forall_forall in Hv. pose proof (Hv u (zget_In _ _ _ Eu) Du) as Hu. rewrite Vu in Hu. destruct Hu as (Hne & _). split; [exact Hne|]. apply zget_Some_lt in Eu. split; [|left; lia].
          apply Id, Hin. destruct names; [contradiction|left; reflexivity]. }
      destruct Hsp as (S1 & S2 & S3). eapply def_entry_ok; eassumption.
    - eapply F2_compose; [exact NR|exact NV|]. intros it v x Hx Hr Hvx. eapply need_entry_ok; [exact Hinv|exact Hr|exact Hvx| |].
      + apply If, in_map, Hx.
      + apply Forall_forall. intros y Hy. split; [apply (In_ (fst x)); apply (in_map (fun x => snd (fst x))), Hy|]. destruct y as [[id name] flags]. apply live_needs_In in Hy as (u & Eu & _). apply zget_Some_lt in Eu. cbn [fst]. lia. }
  destruct (vt_parse e versyms (Some vd) (Some vn) strings) as [vt| |].
  2:{ exfalso. apply HT. eexists. exact TE. }
  2:{ destruct HT. }
  destruct HT as (Hsym & l & TE' & Hl). exists vt. split; [reflexivity|]. split; [exact Hsym|]. intros i Hi. rewrite Hl by lia. destruct (Z.ltb_spec i 2); [lia|].
  assert (El : l = entries base files vers).
  { eapply table_entries_fun; [exact TE'|exact TE]. }
  subst l. pose proof (lookup_last_In (entries base files vers) i) as HLk. destruct (lookup_last (entries base files vers) i) as [v|].
  - apply (entries_In base files vers i v Hv Hi) in HLk. symmetry. exact HLk.
  - destruct (read_version_cases files vers i) as [->|(v & Ev)]; [reflexivity|]. exfalso. apply (HLk v). apply entries_In; assumption.
Qed.
