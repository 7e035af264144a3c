(** Lemmas about [elf_write]: what the reader shows of the file. *)
From Verif Require Import Base Core_spec Core_proofs Str_spec Str_proofs Buf_proofs Map_proofs Util_proofs File_spec File_proofs Hash_proofs Pod_proofs Elf_proofs ElfR_proofs MachW_proofs.
From Verif Require CoffW_proofs MachP_proofs.
From Verif Require Import ElfF_spec ElfF_proofs ElfG_proofs ElfH_proofs ElfK_proofs.
From Verif Require Import ElfW_spec ElfWR_proofs ElfO_model ElfOB_proofs ElfO_spec ElfOJ_proofs ElfON_proofs.
Notation strtab := Str_model.strtab (only parsing).

Lemma section_no_lt (o : obj) i j : 0 <= i -> i < j -> j <= zlen (o_sections o) -> section_no o i < section_no o j.
Proof.
  intros Hi Hj Hl. unfold section_no. assert (count relocated (ztake i (o_sections o)) <= count relocated (ztake j (o_sections o))); [|lia].
  replace (ztake i (o_sections o)) with (ztake i (ztake j (o_sections o))) by (unfold ztake; rewrite firstn_firstn; f_equal; lia).
  set (l := ztake j (o_sections o)). rewrite <- (ztake_zdrop i l) at 2. unfold count. rewrite filter_app, zlen_app. pose proof (zlen_nonneg (filter relocated (zdrop i l))). lia.
Qed.
Lemma section_no_inj (o : obj) i j : 0 <= i < zlen (o_sections o) -> 0 <= j < zlen (o_sections o) -> section_no o i = section_no o j -> i = j.
Proof. intros Hi Hj E. destruct (Z.lt_trichotomy i j) as [L|[L|L]]; [|exact L|]; [pose proof (section_no_lt o i j)|pose proof (section_no_lt o j i)]; lia. Qed.
Lemma section_no_pos (o : obj) i : 0 <= i -> 1 <= section_no o i.
Proof. intro H. unfold section_no, count. pose proof (zlen_nonneg (o_comdats o)). pose proof (zlen_nonneg (filter relocated (ztake i (o_sections o)))). lia. Qed.
Lemma filter_one (f : Z -> bool) l j : NoDup l -> In j l -> f j = true -> (forall x, In x l -> f x = true -> x = j) -> filter f l = [j].
Proof.
  intro N. induction N as [|x l Hx N IH]; intros Hj Fj U; [destruct Hj|]. cbn [filter]. destruct (f x) eqn:Fx.
  - pose proof (U x (or_introl eq_refl) Fx). subst x. f_equal. clear IH. assert (G : forall x, In x l -> f x = false). { intros x H. destruct (f x) eqn:E; [|reflexivity]. pose proof (U x (or_intror H) E). subst x. contradiction. }
    revert G. clear. induction l as [|x l IH]; intro G; cbn [filter]; [reflexivity|]. rewrite (G x (or_introl eq_refl)). apply IH. intros y Hy. apply G. right. exact Hy.
  - destruct Hj as [->|Hj]; [congruence|]. apply IH; [exact Hj|exact Fj|]. intros y Hy. apply U. right. exact Hy.
Qed.
Lemma filter_none (f : Z -> bool) l : (forall x, In x l -> f x = false) -> filter f l = [].
Proof. induction l as [|x l IH]; intro G; cbn [filter]; [reflexivity|]. rewrite (G x (or_introl eq_refl)). apply IH. intros y Hy. apply G. right. exact Hy. Qed.
Lemma indices_in t j : In j (indices t) <-> 0 <= j < zlen (stab_sections t).
Proof. unfold indices, zlen. rewrite in_map_iff. split; [intros (k & <- & H); apply in_seq in H; lia|]. intro H. exists (Z.to_nat j). split; [lia|apply in_seq; lia]. Qed.
Lemma indices_nodup t : NoDup (indices t).
Proof. unfold indices. apply FinFun.Injective_map_NoDup; [intros a b; lia|apply seq_NoDup]. Qed.

(** the iterator over the groups *)
Lemma groups_run e F l1 : forall l2 gs, Forall2 (fun h g => ElfF_model.comdat_parse e F h = Ok (Some g)) l1 gs -> Forall (fun h => ElfF_model.comdat_parse e F h = Ok None) l2 ->
  runs (ElfF_model.comdat_next e F) (l1 ++ l2) gs false [].
Proof.
  induction l1 as [|h l1 IH]; intros l2 gs H1 H2.
  - inversion H1. subst. cbn [app]. constructor. induction l2 as [|h l2 IH]; [reflexivity|]. cbn [ElfF_model.comdat_next]. rewrite (Forall_inv H2). apply IH. exact (Forall_inv_tail H2).
  - inversion H1 as [|? g ? gs' E H1']. subst. cbn [app]. eapply runs_more; [|apply IH; eassumption]. cbn [ElfF_model.comdat_next]. rewrite E. reflexivity.
Qed.

Lemma prefix_match {A C G} (Q : C -> A -> G -> Prop) cs : forall l, (forall k c, zget cs k = Some c -> exists h g, zget l k = Some h /\ Q c h g) ->
  exists l1 l2 gs, l = l1 ++ l2 /\ zlen l1 = zlen cs /\ Forall2 (fun h g => exists c, Q c h g) l1 gs /\ Forall2 (fun c g => exists h, Q c h g) cs gs.
Proof.
  induction cs as [|c cs IH]; intros l H; [exists [], l, []; repeat split; constructor|].
  destruct (H 0 c eq_refl) as (a & g & Ha & Hq). destruct l as [|a' l]; [discriminate|]. rewrite zget_0 in Ha. assert (a' = a) by congruence. subst a'.
  destruct (IH l) as (l1 & l2 & gs & -> & L & F1 & F2).
  { intros k c' Hk. apply zget_Some_lt in Hk as B. destruct (H (k + 1) c') as (h' & g' & Hh & Hg). { rewrite zget_S by lia. replace (k + 1 - 1) with k by lia. exact Hk. } exists h', g'. rewrite zget_S in Hh by lia. replace (k + 1 - 1) with k in Hh by lia. tauto. }
  exists (a :: l1), l2, (g :: gs). split; [reflexivity|]. split; [rewrite !zlen_cons; lia|]. split; constructor; eauto.
Qed.
Section Shown.
Context (o : obj) (is64 is_rela : bool) (h : fhdr) (F raw : bytes) (t : sectab) (S : list section) (Z0 : shdr) (Y T : Z) (tab : bytes) (ws : list wsym) (xs : list Z).
Context (N : shown o is64 is_rela h F raw t S Z0 Y T tab ws xs) (Hz : zlen F < 2 ^ 64) (Kf : bytes_ok F) (Fit : object_fits is64 is_rela o).

Lemma at_index j x : zget S (j - 1) = Some x -> zget (stab_sections t) j = Some (sc_hdr x).
Proof. intro H. rewrite (n_list _ _ _ _ _ _ _ _ _ _ _ _ _ _ N). apply zget_Some_lt in H as B. rewrite zget_S by lia. rewrite zget_map, H. reflexivity. Qed.
Lemma index_inv j g : zget (stab_sections t) j = Some g -> j = 0 /\ g = Z0 \/ 1 <= j /\ exists x, zget S (j - 1) = Some x /\ g = sc_hdr x.
Proof.
  intro H. rewrite (n_list _ _ _ _ _ _ _ _ _ _ _ _ _ _ N) in H. apply zget_Some_lt in H as B. destruct (Z.eq_dec j 0) as [->|Nj]; [rewrite zget_0 in H; left; split; congruence|]. right. split; [lia|].
  rewrite zget_S in H by lia. rewrite zget_map in H. destruct (zget S (j - 1)) as [x|] eqn:E; [|discriminate]. exists x. split; [reflexivity|]. cbn [option_map] in H. congruence.
Qed.
(** the types *)
Lemma type_of j g : zget (stab_sections t) j = Some g ->
  (j = 0 /\ sh_type g = 0) \/ (sh_type g = 17 /\ exists c, zget (o_comdats o) (j - 1) = Some c) \/ (exists i s, zget (o_sections o) i = Some s /\ j = section_no o i /\ plain_type (sh_type g)) \/
  (exists i s, zget (o_sections o) i = Some s /\ relocated s = true /\ j = section_no o i + 1 /\ sh_type g = (if is_rela then 4 else 9) /\ sh_link g = Y /\ sh_info g = section_no o i) \/
  (j = Y /\ sh_type g = 2) \/ sh_type g = 3 \/ sh_type g = 18.
Proof.
  intro H. destruct (index_inv _ _ H) as [(-> & ->)|(Hj & x & Hx & ->)]; [left; split; [reflexivity|apply (n_zero _ _ _ _ _ _ _ _ _ _ _ _ _ _ N)]|]. right.
  destruct (n_class _ _ _ _ _ _ _ _ _ _ _ _ _ _ N _ _ Hx) as [(c & Hc)|[(i & s & Hs & [Hk|(Hr & Hk)])|[Hk|[Hk|(Hk & _)]]]].
  - left. destruct (n_group _ _ _ _ _ _ _ _ _ _ _ _ _ _ N _ _ Hc) as (x' & nm & off & Hx' & E & _). assert (x' = x) by congruence. subst x'. rewrite E. split; [reflexivity|eauto].
  - right. left. exists i, s. destruct (n_section _ _ _ _ _ _ _ _ _ _ _ _ _ _ N _ _ Hs) as (x' & ty & fl & Hx' & _ & _ & Et & _ & _ & Pl & _). rewrite <- Hk in Hx'. assert (x' = x) by congruence. subst x'. rewrite Et. split; [exact Hs|]. split; [lia|exact Pl].
  - right. right. left. exists i, s. destruct (n_reloc _ _ _ _ _ _ _ _ _ _ _ _ _ _ N _ _ Hs Hr) as (x' & nm & off & cs & Hx' & E & _). rewrite <- Hk in Hx'. assert (x' = x) by congruence. subst x'. rewrite E. cbn [wr_reloc_header sh_type sh_link sh_info].
    split; [exact Hs|]. split; [exact Hr|]. split; [lia|]. split; [destruct is_rela; reflexivity|]. split; reflexivity.
  - right. right. right. left. split; [lia|]. destruct (n_symtab _ _ _ _ _ _ _ _ _ _ _ _ _ _ N) as (x' & Hx' & Et & _). rewrite <- Hk in Hx'. assert (x' = x) by congruence. subst x'. exact Et.
  - do 4 right. left. exact Hk.
  - do 5 right. exact Hk.
Qed.
Notation plain := (fun ty => ~ In ty [2; 4; 9; 11; 17; 18; 1073741844]).
Lemma no_reloc0 : forall h0, zget (stab_sections t) 0 = Some h0 -> ~ reloc_section h0.
Proof. intros h0 H. destruct (index_inv _ _ H) as [(_ & ->)|(L & _)]; [|lia]. unfold reloc_section. rewrite (n_zero _ _ _ _ _ _ _ _ _ _ _ _ _ _ N). lia. Qed.
Lemma reloc_inv j g : zget (stab_sections t) j = Some g -> reloc_section g ->
  exists i s, zget (o_sections o) i = Some s /\ relocated s = true /\ j = section_no o i + 1 /\ sh_type g = (if is_rela then 4 else 9) /\ sh_link g = Y /\ sh_info g = section_no o i.
Proof.
  intros H [R|[R|R]]; destruct (type_of _ _ H) as [(_ & E)|[(E & _)|[(i & s & _ & _ & _ & E)|[G|[(_ & E)|[E|E]]]]]]; try exact G; try (rewrite E in R; discriminate R); exfalso; apply E; rewrite R; cbn [In]; tauto.
Qed.
Lemma plain_at i s : zget (o_sections o) i = Some s -> exists g, zget (stab_sections t) (section_no o i) = Some g /\ plain_type (sh_type g).
Proof.
  intro Hs. destruct (n_section _ _ _ _ _ _ _ _ _ _ _ _ _ _ N _ _ Hs) as (x & ty & fl & Hx & _ & _ & Et & _ & _ & Pl & _). exists (sc_hdr x). split; [apply at_index; exact Hx|]. rewrite Et. exact Pl.
Qed.
Lemma plain_no_reloc g : plain_type (sh_type g) -> ~ reloc_section g.
Proof. intros (_ & E) [R|[R|R]]; apply E; rewrite R; cbn [In]; tauto. Qed.
Lemma no_bad : ~ bad_target t Y.
Proof.
  intros (g & Hg & Rg & _ & _ & B). apply In_zget in Hg. destruct Hg as (j & Hj). destruct (reloc_inv _ _ Hj Rg) as (i & s & Hs & _ & _ & _ & _ & Ei). destruct (plain_at _ _ Hs) as (g' & Hg' & Pl). rewrite <- Ei in Hg'.
  exact (plain_no_reloc _ Pl (B _ Hg')).
Qed.
Lemma rel_filter i s : zget (o_sections o) i = Some s -> filter (relocates t Y (section_no o i)) (indices t) = if relocated s then [section_no o i + 1] else [].
Proof.
  intro Hs. apply zget_Some_lt in Hs as Bi.
  assert (U : forall j, relocates t Y (section_no o i) j = true -> relocated s = true /\ j = section_no o i + 1).
  { intros j H. unfold relocates in H. destruct (zget (stab_sections t) j) as [g|] eqn:Hj; [|discriminate]. apply andb_prop in H. destruct H as (H & Hi). apply andb_prop in H. destruct H as (Ht & _). apply Z.eqb_eq in Hi.
    assert (Rg : reloc_section g). { unfold reloc_section. destruct (Z.eqb_spec (sh_type g) 9); [left; assumption|]. destruct (Z.eqb_spec (sh_type g) 4); [right; left; assumption|]. destruct (Z.eqb_spec (sh_type g) 1073741844); [right; right; assumption|discriminate]. }
    destruct (reloc_inv _ _ Hj Rg) as (i' & s' & Hs' & Rl & Ej & _ & _ & Ei). apply zget_Some_lt in Hs' as Bi'. assert (i' = i) by (apply (section_no_inj o); lia). subst i'. split; [congruence|lia]. }
  destruct (relocated s) eqn:Er.
  - destruct (n_reloc _ _ _ _ _ _ _ _ _ _ _ _ _ _ N _ _ Hs Er) as (x & nm & off & cs & Hx & E & _). replace (section_no o i) with (section_no o i + 1 - 1) in Hx by lia. apply at_index in Hx.
    apply filter_one; [apply indices_nodup|apply indices_in; apply zget_Some_lt in Hx; lia| |intros j _ Hj; apply (U j Hj)].
    unfold relocates. rewrite Hx, E. cbn [wr_reloc_header sh_type sh_link sh_info]. rewrite !Z.eqb_refl. destruct is_rela; reflexivity.
  - apply filter_none. intros j _. destruct (relocates t Y (section_no o i) j) eqn:E; [|reflexivity]. destruct (U j E). discriminate.
Qed.
Notation nn := (n_list _ _ _ _ _ _ _ _ _ _ _ _ _ _ N).
Lemma symbols_read : exists st, stab_symbols is64 (o_endian o) F t 2 = Ok st /\ smt_section st = Y /\ zlen (smt_symbols st) = zlen ws /\
  forall n w, zget ws n = Some w -> exists r, same_sym w r /\ (n <> 0 -> symtab_symbol st n = Ok r) /\ symbol_section st r n = Ok (section_of w) /\ (forall name, string_at tab (ws_name w) name -> symbol_name st r = Ok name).
Proof.
  destruct (n_symtab _ _ _ _ _ _ _ _ _ _ _ _ _ _ N) as (x & Hx & Tx & Lx & Dx). destruct (n_strtab _ _ _ _ _ _ _ _ _ _ _ _ _ _ N) as (u & Hu & Tu & Du). pose proof (n_Y _ _ _ _ _ _ _ _ _ _ _ _ _ _ N). pose proof (n_T _ _ _ _ _ _ _ _ _ _ _ _ _ _ N).
  pose proof (n_content _ _ _ _ _ _ _ _ _ _ _ _ _ _ N _ _ Hx) as Cx. pose proof (n_content _ _ _ _ _ _ _ _ _ _ _ _ _ _ N _ _ Hu) as Cu. rewrite Dx in Cx. rewrite Du in Cu.
  destruct (symtab_roundtrip is64 (o_endian o) F t Y T (sc_hdr x) (sc_hdr u) tab ws xs 2 Hz (or_introl eq_refl) (n_ok _ _ _ _ _ _ _ _ _ _ _ _ _ _ N) (at_index _ _ Hx) Tx ltac:(lia) Lx ltac:(lia) Cx (at_index _ _ Hu) Tu Cu) as (st & E1 & _ & E2 & _ & E3 & E4).
  - intros i' g Hg Tg. destruct (type_of _ _ Hg) as [(_ & E)|[(E & _)|[(? & ? & _ & _ & _ & E)|[(? & ? & _ & _ & _ & E & _)|[(E & _)|[E|E]]]]]]; try (rewrite E in Tg; discriminate Tg); [|destruct is_rela; rewrite E in Tg; discriminate Tg|lia]. exfalso. apply E. rewrite Tg. cbn [In]. tauto.
  - intros g Hg Tg Lg. apply In_zget in Hg. destruct Hg as (j & Hj). destruct (index_inv _ _ Hj) as [(-> & ->)|(Bj & x' & Hx' & ->)]; [rewrite (n_zero _ _ _ _ _ _ _ _ _ _ _ _ _ _ N) in Tg; discriminate|].
    pose proof (n_content _ _ _ _ _ _ _ _ _ _ _ _ _ _ N _ _ Hx') as C. destruct (n_class _ _ _ _ _ _ _ _ _ _ _ _ _ _ N _ _ Hx') as [(c & Hc)|[(i & s & Hs & [Hk|(Hr & Hk)])|[Hk|[Hk|(_ & _ & Hk)]]]].
    + exfalso. destruct (n_group _ _ _ _ _ _ _ _ _ _ _ _ _ _ N _ _ Hc) as (y & nm & off & Hy & E & _). assert (y = x') by congruence. subst y. rewrite E in Tg. discriminate Tg.
    + exfalso. destruct (n_section _ _ _ _ _ _ _ _ _ _ _ _ _ _ N _ _ Hs) as (y & ty & fl & Hy & _ & _ & Et & _ & _ & (_ & Pl) & _). rewrite <- Hk in Hy. assert (y = x') by congruence. subst y. apply Pl. rewrite <- Et, Tg. cbn [In]. tauto.
    + exfalso. destruct (n_reloc _ _ _ _ _ _ _ _ _ _ _ _ _ _ N _ _ Hs Hr) as (y & nm & off & cs & Hy & E & _). rewrite <- Hk in Hy. assert (y = x') by congruence. subst y. rewrite E in Tg. destruct is_rela; discriminate Tg.
    + exfalso. rewrite Hk in Hx'. assert (x = x') by congruence. subst x'. rewrite Tx in Tg. discriminate.
    + rewrite Hk in Tg. discriminate.
    + rewrite <- Hk. exact C.
  - exact (n_x _ _ _ _ _ _ _ _ _ _ _ _ _ _ N).
  - exists st. split; [exact E1|]. split; [exact E2|]. split; [exact E3|]. intros n w Hw. destruct (E4 _ _ Hw) as (r & _ & A & B & C & D). exists r. tauto.
Qed.
Lemma dyn_none : stab_symbols is64 (o_endian o) F t 11 = Ok symtab_default.
Proof.
  unfold stab_symbols. change (negb ((11 =? SHT_DYNSYM) || (11 =? SHT_SYMTAB))) with false. cbv iota. destruct (find _ _) as [[j g]|] eqn:Fd; [|reflexivity]. exfalso. apply find_some in Fd. destruct Fd as (Hi & Tg). cbn [snd] in Tg. apply Z.eqb_eq in Tg.
  apply in_combine_r in Hi. apply In_zget in Hi. destruct Hi as (j' & Hj).
  destruct (type_of _ _ Hj) as [(_ & E)|[(E & _)|[(? & ? & _ & _ & _ & E)|[(? & ? & _ & _ & _ & E & _)|[(_ & E)|[E|E]]]]]]; try (rewrite E in Tg; discriminate Tg); [|destruct is_rela; rewrite E in Tg; discriminate Tg]. apply E. rewrite Tg. cbn [In]. tauto.
Qed.
Lemma file_read : exists f st, facts is64 F f /\ ef_raw f = raw /\ ef_endian f = o_endian o /\ ef_segments f = [] /\ ef_sections f = t /\ ef_symbols f = st /\ smt_section st = Y /\ zlen (smt_symbols st) = zlen ws /\
  forall n w, zget ws n = Some w -> exists r, same_sym w r /\ (n <> 0 -> symtab_symbol st n = Ok r) /\ symbol_section st r n = Ok (section_of w) /\ (forall name, string_at tab (ws_name w) name -> symbol_name st r = Ok name).
Proof.
  destruct symbols_read as (st & E1 & E2 & E3 & E4). destruct (relsec_parse_iff t Y) as (A & B). pose proof no_bad as Nb. destruct (relsec_parse t Y) as [r| |] eqn:Er; [|exfalso; apply Nb; apply B; reflexivity|congruence].
  exists {| ef_raw := raw; ef_endian := o_endian o; ef_segments := []; ef_sections := t; ef_relocs := r; ef_symbols := st; ef_dynsyms := symtab_default |}, st.
  split; [|cbn [ef_raw ef_endian ef_segments ef_sections ef_symbols]; tauto]. constructor; cbn [ef_raw ef_endian ef_segments ef_sections ef_symbols ef_dynsyms ef_relocs].
  - exact (n_raw _ _ _ _ _ _ _ _ _ _ _ _ _ _ N). - exact (n_end _ _ _ _ _ _ _ _ _ _ _ _ _ _ N). - exact (n_segs _ _ _ _ _ _ _ _ _ _ _ _ _ _ N). - exact (n_secs _ _ _ _ _ _ _ _ _ _ _ _ _ _ N).
  - exact E1. - exact dyn_none. - rewrite E2. exact Er.
Qed.
Lemma kind_of_flags k g : elf_section_flags k = Some (sh_type g, sh_flags g) -> es_kind g = kind_back k.
Proof.
  unfold es_kind. destruct k; cbn [elf_section_flags]; intro H; try discriminate; injection H as <- <-; vm_compute; reflexivity.
Qed.
Lemma section_read f i s : ef_sections f = t -> zget (o_sections o) i = Some s -> section_back f F (section_no o i) s.
Proof.
  intros Ef Hs. destruct (n_section _ _ _ _ _ _ _ _ _ _ _ _ _ _ N _ _ Hs) as (x & ty & fl & Hx & Nx & Dx & Tx & Fx & Gx & _ & Ax & Sx & Lx & _). destruct (n_sec _ _ _ _ _ _ _ _ _ _ _ _ _ _ N _ _ Hx) as (Q1 & Q2 & Q3).
  exists (sc_hdr x). unfold ef_section, es_name, es_data, es_address, es_size, es_align. rewrite Ef, Q1. split; [reflexivity|]. rewrite Q2, Q3, Nx, Dx. split; [reflexivity|]. split; [reflexivity|]. split; [exact Ax|]. split; [exact Sx|]. split; [exact Lx|].
  unfold eo_section_flags in Gx. destruct (se_flags s) as [|a b| | |]; try discriminate.
  - unfold of_opt in Gx. destruct (elf_section_flags (se_kind s)) as [g|] eqn:Eg; [|discriminate]. apply kind_of_flags. rewrite Eg. congruence.
  - unfold es_flags. congruence.
Qed.
Lemma symbol_no_pos k y : zget (o_symbols o) k = Some y -> 1 <= symbol_no o k.
Proof. intro H. unfold symbol_no. rewrite H. unfold count. pose proof (zlen_nonneg (filter local_symbol (ztake k (o_symbols o)))). pose proof (zlen_nonneg (filter local_symbol (o_symbols o))). pose proof (zlen_nonneg (filter (fun y => negb (local_symbol y)) (ztake k (o_symbols o)))). destruct (local_symbol y); lia. Qed.
Lemma symbol_read f k y : (forall n w, zget ws n = Some w -> exists r, same_sym w r /\ (n <> 0 -> symtab_symbol (ef_symbols f) n = Ok r) /\ symbol_section (ef_symbols f) r n = Ok (section_of w) /\ (forall name, string_at tab (ws_name w) name -> symbol_name (ef_symbols f) r = Ok name)) ->
  zget (o_symbols o) k = Some y -> symbol_back o f (symbol_no o k) y.
Proof.
  intros Q Hy. destruct (n_syms _ _ _ _ _ _ _ _ _ _ _ _ _ _ N _ _ Hy) as (w & Hw & Sw & Fw & Vw & Zw & Cw & Nw). destruct (Q _ _ Hw) as (r & (S1 & S2 & S3 & S4 & S5 & S6) & Q1 & Q2 & Q3). pose proof (symbol_no_pos _ _ Hy).
  exists r. unfold ef_symbol. rewrite (Q1 ltac:(lia)). split; [reflexivity|]. split; [exact (Q3 _ Sw)|].
  assert (Sh : match sy_section y with YNone | YAbsolute => st_shndx r = 65521 | YUndefined => st_shndx r = 0 | YCommon => st_shndx r = 65522
    | YSec i => st_shndx r <> 0 /\ st_shndx r <> 65521 /\ st_shndx r <> 65522 /\ ey_section (ef_symbols f) (symbol_no o k) r = Coff_model.RSection (section_no o i) end).
  { unfold sym_section in Cw. destruct (sy_section y) as [| | | |i] eqn:Es; destruct Cw as (C1 & C2); try (rewrite (S6 C1); exact C2).
    assert (Ei : section_of w = Some (section_no o i)). { unfold section_of. rewrite C1. pose proof (section_no_pos o i ltac:(lia)). destruct (Z.eqb_spec (section_no o i) 0); [lia|reflexivity]. }
    rewrite Ei in Q2. unfold symbol_section in Q2. unfold ey_section. unfold symsec_index in *. change SHN_LORESERVE with 65280 in *. change SHN_XINDEX with 65535 in *.
    destruct (Z.eqb_spec (st_shndx r) 0) as [E0|E0]; cbn [orb] in Q2. { rewrite E0 in Q2. cbn in Q2. discriminate. }
    destruct (Z.leb_spec 65280 (st_shndx r)) as [L|L].
    - destruct (Z.eqb_spec (st_shndx r) 65535) as [E1|E1]; [|discriminate]. rewrite E1. split; [lia|]. split; [lia|]. split; [lia|]. cbn. destruct (symtab_shndx (ef_symbols f) (symbol_no o k)) as [v|]; cbn [of_opt bind] in Q2; [|discriminate]. destruct (v =? 0); [discriminate|]. congruence.
    - split; [lia|]. split; [lia|]. split; [lia|]. destruct (Z.eqb_spec (st_shndx r) 65521); [lia|]. destruct (Z.eqb_spec (st_shndx r) 65522); [lia|]. destruct (Z.eqb_spec (st_shndx r) 65535); [lia|]. cbn [orb]. congruence. }
  split. { unfold ey_address, ey_common. rewrite S4, Vw. destruct (sy_section y) as [| | | |i]; try (rewrite Sh; reflexivity). destruct Sh as (_ & _ & Sh & _). destruct (Z.eqb_spec (st_shndx r) 65522); [congruence|reflexivity]. }
  split; [congruence|]. split; [unfold ey_size; congruence|].
  split. { unfold symbol_section_back. destruct (sy_section y) as [| | | |i]; try (unfold ey_section; rewrite Sh; reflexivity). apply Sh. }
  unfold eo_symbol_flags in Fw. destruct (sy_flags y) as [[a b| | |]|]; try discriminate. { unfold ey_flags. congruence. }
  unfold of_opt in Fw. destruct (elf_symbol_flags y) as [g|] eqn:Eg; [|discriminate]. assert (g = (st_info r, st_other r)) by congruence. subst g. clear Fw Q Q1 Q2 Q3 Cw S6.
  assert (Sz : (st_shndx r =? 0) = match sy_section y with YUndefined => true | _ => false end). { destruct (sy_section y); try (rewrite Sh; reflexivity). apply Z.eqb_neq. apply Sh. }
  unfold ey_kind, ey_scope, ey_weak, symbol_kind_back, symbol_scope_back, st_type, st_bind, st_visibility. rewrite Sz. clear Sz Sh. revert Eg Nw. unfold elf_symbol_flags, oy_undefined, oy_common, oy_local. clear.
  generalize (st_info r) as a, (st_other r) as b. intros a b.
  destruct (sy_kind y), (sy_weak y), (sy_scope y), (sy_section y); intros E Nk; cbn in E; try discriminate; injection E as <- <-; try (specialize (Nk eq_refl); discriminate); vm_compute; repeat split.
Qed.
Lemma relocs_read f i s mips : facts is64 F f -> ef_endian f = o_endian o -> ef_sections f = t -> smt_section (ef_symbols f) = Y -> mips = (is64 && (match o_endian o with Little => true | Big => false end) && (fh_machine h =? 8)) ->
  zget (o_sections o) i = Some s -> relocs_back is64 is_rela mips o f F (section_no o i) s.
Proof.
  intros Fa Ee Et Ey Em Hs. destruct (plain_at _ _ Hs) as (g & Hg & Pl). apply plain_no_reloc in Pl. apply zget_Some_lt in Hs as Bi. pose proof (section_no_pos o i ltac:(lia)) as Ps. pose proof (rel_filter _ _ Hs) as Fl.
  split.
  - rewrite (reloc_index_iff is64 F f (section_no o i) g); [|apply parse_iff; exact Fa|rewrite Et; exact no_reloc0|rewrite Et; exact Hg|lia|exact Pl]. rewrite Et, Ey, Fl. destruct (relocated s); reflexivity.
  - assert (Sk : Forall (shdr_ok is64) (stab_sections t)). { pose proof (fa_secs _ _ _ Fa) as Q. rewrite Et in Q. refine (proj1 (sections_ok is64 _ _ F t Kf _ Hz Q)). apply (raw_ok is64 F _ Kf (fa_raw _ _ _ Fa)). }
    rewrite Ee, Et. pose proof (fa_rels _ _ _ Fa) as Pr. rewrite Et, Ey in Pr.
    assert (G : exists cs, Forall2 (rel_of o) (se_relocs s) cs /\ all_relocs is64 (o_endian o) mips F t (filter (relocates t Y (section_no o i)) (indices t)) (map (fun r => (r, negb is_rela)) cs)).
    { rewrite Fl. destruct (relocated s) eqn:Er.
      - destruct (n_reloc _ _ _ _ _ _ _ _ _ _ _ _ _ _ N _ _ Hs Er) as (x & nm & off & cs & Hx & E & Hc & Dx). exists cs. split; [exact Hc|]. exists [map (fun r => (r, negb is_rela)) cs]. split; [cbn [concat]; rewrite app_nil_r; reflexivity|]. constructor; [|constructor].
        pose proof (n_content _ _ _ _ _ _ _ _ _ _ _ _ _ _ N _ _ Hx) as C. replace (section_no o i) with (section_no o i + 1 - 1) in Hx by lia. exists (sc_hdr x). split; [apply at_index; exact Hx|]. rewrite Dx, <- Em in C.
        assert (Ok_ : Forall (rel_ok is64 is_rela) cs). { pose proof (Forall_zget _ _ _ _ (of_relocs _ _ _ Fit) Hs) as Rf. cbn beta in Rf. revert Rf. clear - Hc. induction Hc as [|l c ls cs (ty & E1 & E2 & _) Hc IH]; intro G; constructor; [|apply IH; exact (Forall_inv_tail G)]. rewrite E2. exact (Forall_inv G _ E1). }
        destruct is_rela eqn:Ei; cbn [negb].
        + apply sr_rela; [rewrite E; reflexivity|exact Ok_| |exact C]. rewrite Em. destruct (o_endian o); [reflexivity|]. rewrite Bool.andb_false_r. discriminate.
        + apply sr_rel; [rewrite E; reflexivity|exact Ok_|exact C].
      - exists []. split; [|exists []; split; [reflexivity|constructor]]. unfold relocated in Er. destruct (se_relocs s) as [|l ls]; [constructor|]. rewrite zlen_cons in Er. pose proof (zlen_nonneg ls). apply Z.ltb_ge in Er. lia. }
    destruct G as (cs & Hc & Al). destruct (section_relocs is64 (o_endian o) mips F t Y (ef_relocs f) (section_no o i) g _ Kf Hz Sk Pr no_reloc0 Hg ltac:(lia) Pl Al) as (st' & Rn).
    eexists. exists st'. split; [exact Rn|]. rewrite map_map. revert Hc. clear - N. intro Hc. induction Hc as [|l c ls cs (ty & E1 & E2 & y & Hy) Hc IH]; cbn [map]; constructor; [|exact IH]. exists ty. split; [exact E1|]. rewrite E2. unfold reloc_view. cbn [fst snd cr_offset cr_sym cr_type cr_addend].
    pose proof (symbol_no_pos _ _ Hy). destruct (Z.eqb_spec (symbol_no o (ol_symbol l)) 0); [lia|reflexivity].
Qed.
Lemma section_no_u32 i : 0 <= i < zlen (o_sections o) -> u32_ok (section_no o i).
Proof.
  intro H. unfold section_no, u32_ok, count. pose proof (filter_length_le relocated (ztake i (o_sections o))) as Q. pose proof (of_few _ _ _ Fit). pose proof (zlen_nonneg (o_comdats o)). pose proof (zlen_nonneg (o_symbols o)).
  assert (zlen (ztake i (o_sections o)) = i) as Li by (apply zlen_ztake; lia). assert (Q' : zlen (filter relocated (ztake i (o_sections o))) <= zlen (ztake i (o_sections o))) by (unfold zlen; lia). pose proof (zlen_nonneg (filter relocated (ztake i (o_sections o)))). lia.
Qed.
Lemma comdats_read f : ef_endian f = o_endian o -> ef_sections f = t ->
  (forall n w, zget ws n = Some w -> exists r, same_sym w r /\ (n <> 0 -> symtab_symbol (ef_symbols f) n = Ok r) /\ symbol_section (ef_symbols f) r n = Ok (section_of w) /\ (forall name, string_at tab (ws_name w) name -> symbol_name (ef_symbols f) r = Ok name)) ->
  exists gs, runs (ElfF_model.comdat_next (ef_endian f) F) (ef_comdats f) gs false [] /\ Forall2 (comdat_back o f) (o_comdats o) gs.
Proof.
  intros Ee Et Q. unfold ef_comdats. rewrite Ee, Et, nn. cbn [tl].
  assert (G : exists l1 l2 gs, map sc_hdr S = l1 ++ l2 /\ Forall2 (fun h g => ElfF_model.comdat_parse (o_endian o) F h = Ok (Some g)) l1 gs /\ Forall (fun h => ElfF_model.comdat_parse (o_endian o) F h = Ok None) l2 /\ Forall2 (comdat_back o f) (o_comdats o) gs).
  {
    assert (P : forall k c, zget (o_comdats o) k = Some c -> exists g0 g, zget (map sc_hdr S) k = Some g0 /\ (ElfF_model.comdat_parse (o_endian o) F g0 = Ok (Some g) /\ comdat_back o f c g)).
    { intros k c Hc. destruct (n_group _ _ _ _ _ _ _ _ _ _ _ _ _ _ N _ _ Hc) as (x & nm & off & Hx & E & Dx & Bs & y & Hy). exists (sc_hdr x), (sc_hdr x, map (section_no o) (oc_sections c)).
      split. { rewrite zget_map, Hx. reflexivity. }
      pose proof (n_content _ _ _ _ _ _ _ _ _ _ _ _ _ _ N _ _ Hx) as C. rewrite Dx, E in C. unfold content in C. cbn [wr_group_header sh_type] in C. change (SHT_GROUP =? 8) with false in C. cbv iota in C. destruct C as (_ & C). cbn [sh_offset map concat] in C.
      split.
      - unfold ElfF_model.comdat_parse. rewrite E. replace (zlen (oc_sections c)) with (zlen (map (section_no o) (oc_sections c))) by apply zlen_map.
        rewrite (group_header_read (o_endian o) F nm Y (symbol_no o (oc_symbol c)) off (map (section_no o) (oc_sections c)) Hz); [reflexivity| |exact C]. apply Forall_map. eapply Forall_impl; [|exact Bs]. intros j Hj. apply section_no_u32. exact Hj.
      - unfold comdat_back, ElfF_model.comdat_symbol, ElfF_model.comdat_name. unfold ElfF_model.comdat_symbol. cbn [fst snd]. rewrite E. cbn [wr_group_header sh_info]. split; [reflexivity|]. split; [reflexivity|].
        intros y' Hy'. destruct (n_syms _ _ _ _ _ _ _ _ _ _ _ _ _ _ N _ _ Hy') as (w & Hw & Sw & _). destruct (Q _ _ Hw) as (r & _ & Q1 & _ & Q3). pose proof (symbol_no_pos _ _ Hy'). rewrite (Q1 ltac:(lia)). cbn [bind]. exact (Q3 _ Sw). }
    assert (R : forall k g0, zlen (o_comdats o) <= k -> zget (map sc_hdr S) k = Some g0 -> ElfF_model.comdat_parse (o_endian o) F g0 = Ok None).
    { intros k g0 Hk Hg. assert (Hg' : zget (stab_sections t) (k + 1) = Some g0). { rewrite nn. pose proof (zlen_nonneg (o_comdats o)). rewrite zget_S by lia. replace (k + 1 - 1) with k by lia. exact Hg. }
      assert (Ng : sh_type g0 <> 17). { intro T0. destruct (type_of _ _ Hg') as [(_ & E)|[(_ & c & E)|[(? & ? & _ & _ & _ & E)|[(? & ? & _ & _ & _ & E & _)|[(_ & E)|[E|E]]]]]]; try (rewrite E in T0; discriminate T0).
        - apply zget_Some_lt in E. lia. - apply E. rewrite T0. cbn [In]. tauto. - destruct is_rela; rewrite E in T0; discriminate T0. }
      unfold ElfF_model.comdat_parse, sh_group. change SHT_GROUP with 17. destruct (Z.eqb_spec (sh_type g0) 17); [congruence|reflexivity]. }
    destruct (prefix_match _ _ _ P) as (l1 & l2 & gs & E & L & F1 & F2). exists l1, l2, gs. split; [exact E|]. split. { eapply MachP_proofs.Forall2_imp; [|exact F1]. cbn beta. intros a b (c & A & _). exact A. }
    split. { apply Forall_forall. intros g0 Hg. apply In_zget in Hg. destruct Hg as (k & Hk). apply zget_Some_lt in Hk as Bk. apply (R (zlen l1 + k)); [lia|]. rewrite E. pose proof (zlen_nonneg l1). rewrite zget_app2 by lia. replace (zlen l1 + k - zlen l1) with k by lia. exact Hk. }
    eapply MachP_proofs.Forall2_imp; [|exact F2]. cbn beta. intros a b (c & _ & A). exact A. }
  destruct G as (l1 & l2 & gs & -> & G1 & G2 & G3). exists gs. split; [apply groups_run; assumption|exact G3].
Qed.
End Shown.

(** * The file of an object *)
Lemma shown_back o is64 is_rela tt m abi ver fl F raw t S Z0 Y T tab ws xs : match eo_flags tt with Some g => g | None => (0, 0, 0) end = (abi, ver, fl) -> elf_machine (o_arch o) = Ok m ->
  shown o is64 is_rela {| fh_os_abi := abi; fh_abi_version := ver; fh_type := 1; fh_machine := m; fh_entry := 0; fh_flags := elf_e_flags (o_arch o) fl |} F raw t S Z0 Y T tab ws xs ->
  zlen F < 2 ^ 64 -> bytes_ok F -> object_fits is64 is_rela o -> exists f, reads_back o tt is64 is_rela F f.
Proof.
  intros Ef Em N Hz Kf Fit. destruct (file_read _ _ _ _ _ _ _ _ _ _ _ _ _ _ N Hz Fit) as (f & st & Fa & Er & Ee & Eg & Et & Es & Ey & El & Q). rewrite <- Es in Ey, El, Q. exists f.
  pose proof (n_hdr _ _ _ _ _ _ _ _ _ _ _ _ _ _ N) as Hh. unfold fhdr_from_raw in Hh. injection Hh as H1 H2 H3 H4 H5 H6. 
  constructor.
  - apply parse_iff. exact Fa.
  - exact Ee.
  - unfold ef_kind. rewrite Ee, Er, H3. reflexivity.
  - unfold ef_entry. rewrite Ee, Er. exact H5.
  - rewrite Ef. unfold ef_flags. rewrite Ee, Er. congruence.
  - exists m. split; [exact Em|]. unfold ef_architecture, ef_flags. cbn [snd]. rewrite Ee, Er, H4. reflexivity.
  - exact Eg.
  - intros i s Hs. eapply section_read; eassumption.
  - intros i s Hs. eapply relocs_read; try eassumption. rewrite Em. reflexivity.
  - intros k y Hy. eapply symbol_read; eassumption.
  - destruct (n_local _ _ _ _ _ _ _ _ _ _ _ _ _ _ N) as (x & Hx & Hi). destruct (n_symtab _ _ _ _ _ _ _ _ _ _ _ _ _ _ N) as (x' & Hx' & Tx & _). assert (x' = x) by congruence. subst x'.
    exists (sc_hdr x). rewrite Ey. unfold ef_section. rewrite Et, (proj1 (n_sec _ _ _ _ _ _ _ _ _ _ _ _ _ _ N _ _ Hx)). split; [reflexivity|]. split; [exact Tx|exact Hi].
  - rewrite El. exact (n_len _ _ _ _ _ _ _ _ _ _ _ _ _ _ N).
  - eapply comdats_read; eassumption.
Qed.
