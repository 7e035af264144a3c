(** Lemmas about [elf_write]: symbols and the tables. *)
From Verif Require Import Base Core_spec Core_proofs Str_spec Str_proofs Buf_proofs Map_proofs Util_proofs File_spec File_proofs Hash_proofs Pod_proofs Elf_proofs ElfR_proofs MachW_proofs.
From Verif Require CoffW_proofs.
From Verif Require Import ElfW_spec ElfWR_proofs ElfWB_proofs ElfWC_proofs ElfWT_proofs ElfO_model ElfO_proofs ElfOB_proofs ElfOC_proofs ElfOD_proofs ElfOE_proofs ElfOF_proofs ElfOG_proofs.
Notation strtab := Str_model.strtab (only parsing).

Lemma nodup_app2 {X} (a b : list X) : NoDup a -> NoDup b -> (forall x, In x a -> In x b -> False) -> NoDup (a ++ b).
Proof.
  induction a as [|x a IH]; intros Na Nb D; [exact Nb|]. inversion Na; subst. cbn [app]. constructor.
  - rewrite in_app_iff. intros [Q|Q]; [contradiction|]. exact (D x (or_introl eq_refl) Q).
  - apply IH; [assumption|assumption|]. intros y Hy Hy'. exact (D y (or_intror Hy) Hy').
Qed.
(** a need stays *)
Lemma need_kept r c v r' s : after r c v r' -> r_need r s = true -> r_need r' s = true.
Proof.
  intros A H. assert (U : forall t, upd (r_need r) t true s = true) by (intro t; unfold upd; destruct (slot_beq t s); [reflexivity|exact H]).
  assert (W : r_need (with_first r SSymtab) s = true /\ r_need (with_first r SDynsym) s = true) by (unfold with_first; split; destruct (_ =? 0); proj; first [apply U|exact H]).
  destruct W as (W1 & W2).
  ac A; proj; try exact H; try apply U; try assumption.
  - destruct (slot_indexed s0); proj; exact H.
  - destruct section as [n|]; [destruct (_ <=? _)|]; proj; try assumption. unfold upd. destruct (slot_beq SShndx s); [reflexivity|exact W1].
Qed.
Lemma need_run b : forall r vs R s, r_run r b = Ok (vs, R) -> r_need r s = true -> r_need R s = true.
Proof.
  induction b as [|c b IH]; intros r vs R s H K; cbn [r_run] in H; [congruence|]. mb H. destruct a as [v r1]. mb H. destruct a as [vb R1]. assert (R1 = R) by congruence. subst R1.
  apply exec_after in E. exact (IH _ _ _ _ E0 (need_kept _ _ _ _ _ E K)).
Qed.
Lemma find_fst (l : list (Z * Z)) : NoDup (map fst l) -> forall j k n, zget l j = Some (k, n) -> find (fun q => fst q =? k) l = Some (k, n).
Proof.
  induction l as [|[a b] l IH]; intros N j k n H; [apply zget_In in H; destruct H|]. cbn [map fst] in N. inversion N as [|? ? N1 N2]; subst. cbn [find fst]. apply zget_Some_lt in H as B. destruct (Z.eq_dec j 0) as [->|Nj].
  - rewrite zget_0 in H. assert (a = k /\ b = n) as (-> & ->) by (split; congruence). rewrite Z.eqb_refl. reflexivity.
  - rewrite zget_S in H by lia. destruct (Z.eqb_spec a k) as [->|D]; [exfalso; apply N1; apply in_map_iff; exists (k, n); split; [reflexivity|exact (zget_In _ _ _ H)]|]. exact (IH N2 _ _ _ H).
Qed.
Lemma nodup_filter {X} (f : Z * X -> bool) l : NoDup (map fst l) -> NoDup (map fst (filter f l)).
Proof.
  induction l as [|x l IH]; intro N; [exact N|]. cbn [map] in N. inversion N as [|? ? N1 N2]; subst. cbn [filter]. destruct (f x); [|exact (IH N2)]. cbn [map]. constructor; [|exact (IH N2)].
  intro Q. apply N1. apply in_map_iff in Q. destruct Q as (y & E & Q). apply filter_In in Q. apply in_map_iff. exists y. split; [exact E|apply Q].
Qed.
Lemma enumerate_fst {X} (l : list X) : NoDup (map fst (enumerate l)).
Proof.
  induction l as [|x l IH] using rev_ind; [constructor|]. rewrite enumerate_snoc, map_app. cbn [map fst]. apply nodup_app2.
  - exact IH.
  - repeat constructor. intros [].
  - intros k Hk [Q|[]]. subst k. apply in_map_iff in Hk. destruct Hk as ([k y] & E & Hk). cbn [fst] in E. subst k. pose proof (map_fst_enumerate l) as M. rewrite Forall_forall in M. specialize (M _ Hk). cbn [fst snd] in M. apply zget_Some_lt in M. lia.
Qed.
Lemma in_enumerate {X} (l : list X) k y : In (k, y) (enumerate l) <-> zget l k = Some y.
Proof.
  split; intro H; [pose proof (map_fst_enumerate l) as M; rewrite Forall_forall in M; exact (M _ H)|].
  revert k H. induction l as [|x l IH] using rev_ind; intros k H; [apply zget_In in H; destruct H|]. rewrite enumerate_snoc. apply in_app_iff. apply zget_Some_lt in H as B. rewrite zlen_app in B. change (zlen [x]) with 1 in B.
  destruct (Z.lt_ge_cases k (zlen l)).
  - left. apply IH. rewrite zget_app1 in H by lia. exact H.
  - right. left. assert (k = zlen l) by lia. subst k. rewrite zget_app2, Z.sub_diag, zget_0 in H by lia. congruence.
Qed.
(** the place of an element among the selected ones *)
Lemma filter_place {X} (f : X -> bool) l k y : zget l k = Some y -> f y = true -> zget (filter (fun q => f (snd q)) (enumerate l)) (zlen (filter f (ztake k l))) = Some (k, y).
Proof.
  induction l as [|x l IH] using rev_ind; intros H Hy; [apply zget_In in H; destruct H|]. apply zget_Some_lt in H as B. rewrite zlen_app in B. change (zlen [x]) with 1 in B.
  assert (Lf : zlen (filter (fun q => f (snd q)) (enumerate l)) = zlen (filter f l)).
  { clear. rewrite <- (map_snd_enumerate l) at 2. induction (enumerate l) as [|q m IH]; [reflexivity|]. cbn [filter map]. destruct (f (snd q)); rewrite ?zlen_cons, IH; reflexivity. }
  rewrite enumerate_snoc, filter_app. destruct (Z.lt_ge_cases k (zlen l)).
  - rewrite ztake_app_le by lia. rewrite zget_app1 in H by lia. specialize (IH H Hy). rewrite zget_app1; [exact IH|]. apply zget_Some_lt in IH; lia.
  - assert (k = zlen l) by lia. subst k. rewrite ztake_app_eq by reflexivity. rewrite zget_app2, Z.sub_diag, zget_0 in H by lia. assert (x = y) by congruence. subst x.
    rewrite zget_app2 by lia. rewrite Lf, Z.sub_diag. cbn [filter snd]. rewrite Hy. apply zget_0.
Qed.
Lemma symbols_numbered secs l : forall r ys r', map_m (ew_symbol secs) l r = Ok (ys, r') -> 1 <= r_num r SSymtab ->
  (forall k q, zget l k = Some q -> zget ys k = Some (fst q, r_num r SSymtab + k)) /\ r_num r' SSymtab = r_num r SSymtab + zlen l /\ map fst ys = map fst l.
Proof.
  induction l as [|q l IH]; intros r ys r' H P; cbn [map_m] in H.
  - assert (ys = []) by congruence. assert (r' = r) by congruence. subst. split; [intros k q Q; apply zget_In in Q; destruct Q|]. split; [change (zlen (@nil (Z * osym))) with 0; lia|reflexivity].
  - mb H. destruct a as [y r1]. mb H. destruct a as [ys1 r2]. assert (ys = y :: ys1) by congruence. assert (r2 = r') by congruence. subst ys r2.
    destruct (symbol_run _ _ _ _ _ E) as (Ex & Ef & _). apply exec_after in Ex. unfold symbol_cmd in Ex. cbn [after] in Ex. destruct Ex as (_ & _ & Ev & _ & Er). destruct (first_fields r SSymtab) as (_ & _ & _ & _ & _ & _ & _ & _ & _ & _ & _ & _ & Fn). rewrite Fn in Ev. destruct (Z.eqb_spec (r_num r SSymtab) 0); [lia|].
    assert (N1 : r_num r1 SSymtab = r_num r SSymtab + 1). { rewrite Er. cbv zeta. destruct (match sy_section (snd q) with YSec id => Some (sidx secs id) | _ => None end); [destruct (_ <=? _)|]; proj; rewrite upd_same; lia. }
    destruct (IH _ _ _ E0 ltac:(lia)) as (I1 & I2 & I3). rewrite N1 in I1, I2. split; [|split; [rewrite zlen_cons; lia|cbn [map]; rewrite I3, Ef; reflexivity]].
    intros k q' Hk. apply zget_Some_lt in Hk as B. destruct (Z.eq_dec k 0) as [->|Nk].
    + rewrite zget_0 in Hk. rewrite zget_0. assert (q' = q) by congruence. subst q'. destruct y as [a b]. cbn [fst snd] in *. f_equal. f_equal; lia.
    + rewrite zget_S in Hk by lia. rewrite zget_S by lia. rewrite (I1 _ _ Hk). f_equal. f_equal. lia.
Qed.

Section Syms.
Context (o : obj) (is_rela is64 : bool) (p : eplan) (R : rst) (nd : bool) (P1 : phase1 o is_rela is64 p R nd).
Context (Few : zlen (o_comdats o) + zlen (o_sections o) + zlen (o_symbols o) < 2 ^ 29).
Context (Sok : Forall (fun s => bytes_ok (se_name s) /\ good_align (se_align s)) (o_sections o)).
Context (Yok : Forall (fun y => bytes_ok (sy_name y)) (o_symbols o)).
Context (h : fhdr) (F : bytes) (Wr : ew_write o R p is_rela h = Ok F).
Notation st := (steps o is_rela p R nd).
Notation cs := (RFileHeader :: map fst st).
Notation st1 := (steps1 o p). Notation st2 := (steps2 o is_rela). Notation st3 := (steps3 o p). Notation st4 := (steps4 o p R).
Notation st5 := (steps5 nd). Notation st6 := (steps6 o is_rela p). Notation st7 := (steps7 o is_rela p R).
Notation Ord := (ordered o is_rela is64 p R nd P1 Few Sok Yok).
Notation X := (the_x o is64 p R h).
Notation r00 := (r_new is64 (o_endian o)).
Notation L := (locals o ++ globals o).

Lemma null_num : r_num (p1_r3 _ _ _ _ _ _ P1) SSymtab = 1 /\ r_need (p1_r3 _ _ _ _ _ _ P1) SStrtab = true.
Proof. pose proof (p1_null _ _ _ _ _ _ P1) as E. apply exec_after in E. cbn [after] in E. destruct E as (_ & _ & ->). proj. split; reflexivity. Qed.
Lemma syms_at : (forall k q, zget L k = Some q -> zget (pl_syms p) k = Some (fst q, 1 + k)) /\ pl_local p = 1 + zlen (locals o) /\ map fst (pl_syms p) = map fst L.
Proof.
  destruct null_num as (N & _). destruct (symbols_numbered _ _ _ _ _ (p1_locals _ _ _ _ _ _ P1) ltac:(lia)) as (A1 & A2 & A3). rewrite N in A1, A2. pose proof (zlen_nonneg (locals o)).
  destruct (symbols_numbered _ _ _ _ _ (p1_globals _ _ _ _ _ _ P1) ltac:(lia)) as (B1 & B2 & B3). rewrite A2 in B1. rewrite (p1_syms _ _ _ _ _ _ P1), (p1_num _ _ _ _ _ _ P1).
  pose proof (map_m_zlen _ _ _ _ _ (p1_locals _ _ _ _ _ _ P1)) as Ll.
  split; [|split; [lia|rewrite !map_app, A3, B3; reflexivity]]. intros k q Hk. destruct (Z.lt_ge_cases k (zlen (locals o))).
  - apply zget_Some_lt in Hk as B. rewrite zget_app1 in Hk by lia. rewrite zget_app1 by lia. exact (A1 _ _ Hk).
  - rewrite zget_app2 in Hk by lia. rewrite zget_app2 by lia. rewrite Ll. rewrite (B1 _ _ Hk). f_equal. f_equal. lia.
Qed.
Lemma order_nodup : NoDup (map fst L).
Proof.
  rewrite map_app. apply nodup_app2; [apply nodup_filter, enumerate_fst|apply nodup_filter, enumerate_fst|].
  intros k H1 H2. apply in_map_iff in H1, H2. destruct H1 as ([k1 y1] & E1 & H1). destruct H2 as ([k2 y2] & E2 & H2). cbn [fst] in E1, E2. subst k1 k2.
  unfold locals, globals in H1, H2. apply filter_In in H1, H2. destruct H1 as (H1 & L1). destruct H2 as (H2 & L2). apply in_enumerate in H1, H2. cbn [snd] in L1, L2. assert (y1 = y2) by congruence. subst. rewrite L1 in L2. discriminate.
Qed.
(** the index of a symbol *)
Definition sym_pos (k : Z) : Z :=
  match zget (o_symbols o) k with
  | Some y => if oy_local y then 1 + zlen (filter oy_local (ztake k (o_symbols o)))
              else 1 + zlen (locals o) + zlen (filter (fun y => negb (oy_local y)) (ztake k (o_symbols o)))
  | None => 0
  end.
Lemma order_at k y : zget (o_symbols o) k = Some y -> zget L (sym_pos k - 1) = Some (k, y).
Proof.
  intro H. unfold sym_pos. rewrite H. destruct (oy_local y) eqn:E.
  - pose proof (filter_place oy_local _ _ _ H E) as Q. rewrite Z.add_simpl_l. rewrite zget_app1; [exact Q|]. apply zget_Some_lt in Q; unfold locals; lia.
  - pose proof (filter_place (fun y => negb (oy_local y)) _ _ _ H ltac:(cbn beta; rewrite E; reflexivity)) as Q. pose proof (zlen_nonneg (filter (fun y => negb (oy_local y)) (ztake k (o_symbols o)))). rewrite zget_app2 by lia.
    rewrite <- Q. unfold globals. f_equal. lia.
Qed.
Lemma yidx_at k y : zget (o_symbols o) k = Some y -> yidx p k = sym_pos k.
Proof.
  intro H. destruct syms_at as (A & _ & B). pose proof (A _ _ (order_at _ _ H)) as Q. cbn [fst] in Q. unfold yidx. rewrite (find_fst _ ltac:(rewrite B; apply order_nodup) _ _ _ Q). lia.
Qed.
(** the names of symbols *)
Lemma strtab_on : r_off R SStrtab <> 0.
Proof.
  destruct (run_all _ _ _ _ _ _ P1) as (vs & Run). assert (In (RStrings SStrtab) cs) as J.
  { rewrite cs_eq. unfold steps5. rewrite map_app. rewrite !in_app_iff. right. left. right. right. cbn [map fst In]. tauto. }
  apply in_split in J. destruct J as (a & b & E). assert (Na : a <> []) by (intros ->; discriminate).
  destruct (make_here _ _ _ _ _ Ord Run a _ b E Na) as (va & v & vb & ra & r1 & H1 & _ & _ & _ & Hh).
  assert (Nd : r_need ra SStrtab = true).
  { destruct (run2 _ _ _ _ _ _ P1) as (v2 & R2). pose proof (p1_null _ _ _ _ _ _ P1) as Q. pose proof null_num as (_ & N).
    assert (exists m, a = ((RFileHeader :: map fst st1) ++ map fst st2) ++ RNullSymbol SSymtab :: m) as (m & ->).
    { assert (Eu : cs = (((RFileHeader :: map fst st1) ++ map fst st2) ++ RNullSymbol SSymtab :: map fst (tl st3) ++ map fst st4 ++ (if nd then [RIndex SShndx] else []) ++ [RShndx; RIndex SStrtab]) ++ RStrings SStrtab :: map fst st6 ++ map fst st7).
      { rewrite cs_eq. unfold steps5. rewrite !map_app. cbn [app]. rewrite <- !app_assoc. cbn [app]. repeat f_equal. unfold steps3. cbn [map tl app fst]. rewrite <- !app_assoc. repeat f_equal. destruct nd; reflexivity. }
      rewrite Eu in E. symmetry in E. apply unique_split in E; [destruct E as (-> & _); eexists; reflexivity| |].
      - intro Q1. rewrite !in_app_iff in Q1. cbn [In] in Q1. rewrite !in_app_iff in Q1.
        assert (B : ~ In (RStrings SStrtab) (RFileHeader :: map fst st1 ++ map fst st2 ++ map fst st3)) by (apply before; [intros []|intros []|discriminate]).
        apply B. cbn [In]. rewrite !in_app_iff. destruct Q1 as [[[Q1|Q1]|Q1]|[Q1|[Q1|[Q1|[Q1|Q1]]]]]; try discriminate; try tauto.
        + right. right. right. right. exact Q1.
        + cbn in Q1. intuition discriminate.
        + exfalso. destruct nd; cbn in Q1; intuition discriminate.
        + exfalso. cbn in Q1. intuition discriminate.
      - rewrite in_app_iff. intros [Q1|Q1]; [revert Q1; apply in6; intros []|cbn in Q1; intuition discriminate]. }
    apply run_split in H1. destruct H1 as (u1 & u2 & u3 & u4 & u5 & U1 & U2 & U3 & _). assert (u2 = p1_r2 _ _ _ _ _ _ P1) by congruence. subst u2. assert (u4 = p1_r3 _ _ _ _ _ _ P1) by congruence. subst u4. exact (need_run _ _ _ _ _ U3 N). }
  rewrite (here_off _ _ _ _ _ _ _ _ SStrtab Hh eq_refl). pose proof (i_len _ _ (h_inv _ _ _ _ _ _ _ _ Hh)) as Pl.
  pose proof (h_after _ _ _ _ _ _ _ _ Hh) as (A0 & [(Z0 & _)|(Z0 & n & d & t & _ & -> & _ & ->)]).
  - unfold strings_needed in Z0. rewrite Nd in Z0. discriminate.
  - proj. rewrite upd_same. lia.
Qed.
Definition symbol_label (y : osym) : bytes := match sy_kind y with YSection => [] | _ => sy_name y end.
Lemma label_at k y : zget (o_symbols o) k = Some y -> exists id n, zget (pl_names p) k = Some id /\ name_offset R SStrtab id = Ok n /\ u32_ok n /\ string_at (r_data R SStrtab) n (symbol_label y).
Proof.
  intro H. destruct (map_m_at _ _ _ _ _ (p1_names _ _ _ _ _ _ P1) _ _ H) as (id & s1 & s2 & E1 & E2 & E3 & _). exists id.
  destruct (name_run _ _ _ _ E3) as (_ & N). destruct (run_all _ _ _ _ _ _ P1) as (vs & Run). unfold symbol_label.
  destruct (named_sym y) eqn:Ny.
  - destruct N as (i & -> & N).
    assert (El : match sy_kind y with YSection => [] | _ => sy_name y end = sy_name y) by (revert Ny; unfold named_sym; destruct (sy_kind y); intro; first [reflexivity|discriminate]).
    rewrite El.
    assert (Rm : exists vm, r_run r00 (RFileHeader :: (map fst st1 ++ map fst st2 ++ RNullSymbol SSymtab :: map (symbol_cmd (pl_secs p)) L) ++ flat_map name_cmds (ztake k (o_symbols o))) = Ok (vm, s1)).
    { destruct (run2 _ _ _ _ _ _ P1) as (v2 & R2). destruct (symbols_run _ _ _ _ _ (p1_locals _ _ _ _ _ _ P1)) as (v3 & R3). destruct (symbols_run _ _ _ _ _ (p1_globals _ _ _ _ _ _ P1)) as (v4 & R4).
      destruct (map_m_run _ name_cmds _ (fun x r y r' Q => proj1 (name_run x r y r' Q)) _ _ _ E2) as (v5 & R5).
      eexists. assert (RFileHeader :: (map fst st1 ++ map fst st2 ++ RNullSymbol SSymtab :: map (symbol_cmd (pl_secs p)) L) ++ flat_map name_cmds (ztake k (o_symbols o)) =
        ((RFileHeader :: map fst st1) ++ map fst st2) ++ [RNullSymbol SSymtab] ++ map (symbol_cmd (pl_secs p)) (locals o) ++ map (symbol_cmd (pl_secs p)) (globals o) ++ flat_map name_cmds (ztake k (o_symbols o))) as ->.
      { rewrite map_app. cbn [app]. rewrite <- !app_assoc. cbn [app]. rewrite <- !app_assoc. reflexivity. }
      eapply run_cat; [exact R2|]. eapply run_cat; [apply run_one; exact (p1_null _ _ _ _ _ _ P1)|]. eapply run_cat; [exact R3|]. eapply run_cat; [exact R4|]. exact R5. }
    destruct Rm as (vm & Rm).
    assert (Ec : cs = (RFileHeader :: (map fst st1 ++ map fst st2 ++ RNullSymbol SSymtab :: map (symbol_cmd (pl_secs p)) L) ++ flat_map name_cmds (ztake k (o_symbols o))) ++ RAdd SStrtab (sy_name y) :: flat_map name_cmds (zdrop (k + 1) (o_symbols o)) ++ map fst st4 ++ map fst st5 ++ map fst st6 ++ map fst st7).
    { unfold steps. rewrite !map_app, (cmds3 o p). rewrite (flat_split _ _ _ _ H). assert (name_cmds y = [RAdd SStrtab (sy_name y)]) as -> by (unfold name_cmds; rewrite Ny; reflexivity). rewrite ?map_app. cbn [app]. rewrite <- !app_assoc. cbn [app]. rewrite <- !app_assoc. reflexivity. }
    destruct (added _ _ _ _ _ _ _ _ _ _ _ _ _ Ord Run Ec ltac:(discriminate) Rm N strtab_on) as ((n & G1 & G2 & G3) & _). exists n. repeat (split; [assumption|]). exact G3.
  - destruct N as (-> & _). exists 0. split; [exact E1|]. split; [reflexivity|]. split; [unfold u32_ok; lia|].
    assert (El : match sy_kind y with YSection => [] | _ => sy_name y end = []) by (revert Ny; unfold named_sym; destruct (sy_kind y), (sy_name y); intro; first [reflexivity|discriminate]).
    rewrite El. destruct (data_null _ _ _ _ _ SStrtab Ord Run ltac:(cbn; tauto) strtab_on) as (d & ->). split; [exists [], d; split; reflexivity|intros []].
Qed.
End Syms.
