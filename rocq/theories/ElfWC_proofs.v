(** The whole ELF writer: section headers, and the induction over the calls. *)
From Verif Require Import Base Core_spec Core_proofs Str_spec Str_proofs Buf_proofs Map_proofs Util_proofs File_spec File_proofs Hash_proofs Pod_proofs Elf_proofs ElfR_proofs MachW_proofs.
From Verif Require Import ElfW_spec ElfWR_proofs ElfWB_proofs.
Notation strtab := Str_model.strtab (only parsing).

Lemma header_step R w k h : w_secs w = k + 1 -> 0 <= k -> k + 2 <= r_secs R -> r_secs R < 2 ^ 32 ->
  w_section_header R w h = Ok (k + 1, with_counts (w_put w (enc_shdr (r_is64 R) (r_end R) h)) (w_segs w) (k + 2)).
Proof.
  intros Hw K1 K2 K3. unfold w_section_header. cbv zeta. change (w_secs (w_put w _)) with (w_secs w). rewrite Hw. unfold padd.
  destruct (Z.ltb_spec (k + 1 + 1) (2 ^ 32)); [|lia]. cbn [bind]. replace (k + 1 + 1) with (k + 2) by lia. destruct (Z.leb_spec (k + 2) (r_secs R)); [reflexivity|lia].
Qed.
Lemma counts_frame w h n : wframe (Some PSections) w (with_counts (w_put w h) (w_segs w) n).
Proof. repeat split. Qed.
Lemma bk_sections nm cs a v b ra r1 R m w ws d : here cs a RSectionHeaders v b ra r1 R -> a <> [] -> winv R m a ra w ->
  (forall s, In (Some s) (headers cs) -> r_off R SShstrtab <> 0) -> (r_off R SShndx <> 0 -> r_num R SSymtab * 4 < 2 ^ 32) ->
  block nm R m a RSectionHeaders v ws d -> done R m a RSectionHeaders v ra r1 w ws.
Proof.
  intros H Na W HS HX B. pose proof (b_pos _ _ _ _ _ _ _ _ H) as P. pose proof (here_sh _ _ _ _ _ _ _ _ H eq_refl) as P1.
  destruct (here_const _ _ _ _ _ _ _ _ H) as (K1 & K2). pose proof (wi_len _ _ _ _ _ W) as L. pose proof (h_final _ _ _ _ _ _ _ _ H) as Fi.
  destruct (i_secs _ _ (h_inv _ _ _ _ _ _ _ _ H)) as (Is & Ib).
  pose proof (h_after _ _ _ _ _ _ _ _ H) as (A0 & [(Z0 & -> & ->)|(Z0 & A & Er)]).
  - assert (ws = [WNullSectionHeader]) as -> by (inversion B; subst; try reflexivity; try congruence; discriminate).
    apply (fin a _ _ ra ra R m w Na W w _ []); [discriminate|apply wframe_refl|exact L| |apply b_no_sections; reflexivity|apply put_none; reflexivity].
    cbn [w_run w_exec]. unfold w_null_section_header. rewrite P1, A0. reflexivity.
  - destruct Is as [(Is & _)|Is]; [congruence|]. pose proof (zlen_nonneg (headers a)) as Hn.
    destruct (at_out w ra (r_secs ra * shdr_size (r_is64 ra)) _ v L ltac:(lia) ltac:(destruct (r_is64 ra); cbn [shdr_size]; lia) (addr_good (r_is64 ra)) A) as (G & w1 & E & O & Q & F).
    destruct (here_secs _ _ _ _ _ _ _ _ H eq_refl) as (Sc & Hh); [subst r1; proj; lia|subst r1; proj; lia|].
    subst r1. proj_in P1. proj_in Sc.
    assert (exists l, ws = WNullSectionHeader :: l /\ zlen l = zlen (headers a) /\
      (forall i h c, zget (headers a) i = Some h -> zget l i = Some c -> exists x, header_call nm R h c x)) as (l & -> & Ll & Hl).
    { inversion B; subst; try lia; try discriminate. eexists; split; [reflexivity|]. split; [assumption|]. intros i h c Hi Hc.
      apply zget_Some_lt in Hi as Bi. destruct (zget_lt_Some ds i) as (x & Ex); [lia|]. exists x. eauto. }
    destruct (loop R l (Some PSections) (fun k w => w_secs w = k + 1) (fun k x => exists h c, zget (headers a) k = Some h /\ zget l k = Some c /\ header_call (name_at R) R h c x /\ zlen x = shdr_size (r_is64 R)))
      with (w := with_counts (w_put w1 (enc_null_shdr (r_is64 R) (r_end R) (w_layout R))) (w_segs w1) 1) as (w2 & ds & E2 & O2 & F2 & I2 & L2 & D2).
    + intros k c w3 Hk Hs. apply zget_Some_lt in Hk as Bk. destruct (zget_lt_Some (headers a) k) as (h & Hh'); [lia|]. destruct (Hl k h c Hh' Hk) as (x & Hx).
      inversion Hx; subst.
      * cbn [w_exec]. rewrite (header_step R w3 k) by lia. cbn [bind]. eexists _, _. split; [reflexivity|]. split; [reflexivity|]. split; [apply counts_frame|].
        split; [cbn [w_secs with_counts]; lia|]. exists None, (WSectionHeader h0). split; [exact Hh'|]. split; [exact Hk|]. split; [constructor|apply zlen_enc_shdr].
      * assert (Hz : zget (headers cs) k = Some (Some s)) by (rewrite Hh; exact Hh').
        destruct (i_hdr _ _ Fi _ _ Hz) as (Hid & Hix). destruct (r_id R s) as [id|] eqn:Eid; [|congruence].
        assert (So : r_off R SShstrtab <> 0) by (apply (HS s); apply zget_In in Hz; exact Hz).
        destruct (i_names _ _ Fi So s id Eid) as (o & No & Bo & Sa).
        assert (Ex : w_slot_header R w3 s addr n = Ok (with_counts (w_put w3 (enc_shdr (r_is64 R) (r_end R) (slot_header R s o addr n))) (w_segs w3) (k + 2))).
        { unfold w_slot_header. rewrite Eid.
          replace (match s with SShstrtab => negb (r_off R s =? 0) | _ => true end) with true by (destruct s; try reflexivity; destruct (Z.eqb_spec (r_off R SShstrtab) 0); [contradiction|reflexivity]).
          cbn [guard bind].
          replace (bind _ _) with (name <- name_offset R SShstrtab (Some id) ;; ' (i, w) <- w_section_header R w3 (slot_header R s name addr n) ;;
             _ <- guard (if slot_indexed s then r_index R s =? i else true) ;; Ok w).
          - unfold name_offset. rewrite No. cbn [bind]. rewrite (header_step R w3 k) by lia. cbn [bind].
            replace (if slot_indexed s then r_index R s =? k + 1 else true) with true; [reflexivity|]. destruct (slot_indexed s); [|reflexivity]. rewrite Hix by reflexivity. rewrite Z.eqb_refl. reflexivity.
          - destruct s; try reflexivity. destruct (Z.eqb_spec (r_off R SShndx) 0) as [Y|Y]; [reflexivity|]. unfold pmul. specialize (HX Y).
            destruct (Z.ltb_spec (r_num R SSymtab * 4) (2 ^ 32)); [reflexivity|lia]. }
        cbn [w_exec]. rewrite Ex. eexists _, _. split; [reflexivity|]. split; [reflexivity|]. split; [apply counts_frame|].
        split; [cbn [w_secs with_counts]; lia|]. exists (Some s), (WSlotHeader s addr n). split; [exact Hh'|]. split; [exact Hk|]. split; [constructor; assumption|apply zlen_enc_shdr].
    + reflexivity.
    + apply (fin a _ _ ra _ R m w Na W w2 _ (enc_null_shdr (r_is64 R) (r_end R) (w_layout R) ++ concat ds)); [discriminate| | | | |].
      * apply (wframe_trans _ _ w1); [apply wframe_weak; exact F|]. refine (wframe_trans _ _ _ _ _ F2). apply counts_frame.
      * rewrite O2. change (w_out (with_counts (w_put w1 ?x) _ _)) with (w_out w1 ++ x). rewrite !zlen_app, Q. unfold enc_null_shdr. rewrite zlen_enc_shdr.
        rewrite (concat_all (shdr_size (r_is64 R)) ds), L2, Ll by (intros k x Hk; destruct (D2 k x Hk) as (? & ? & _ & _ & _ & Y); exact Y). proj. rewrite Is, K1. lia.
      * cbn [w_run w_exec]. unfold w_null_section_header. rewrite P1. destruct (Z.eqb_spec v 0); [lia|]. rewrite K1, E. cbn [bind]. cbv zeta. rewrite K1 in E2.
        destruct (Z.leb_spec 1 (r_secs R)); [|lia]. cbn [guard bind]. exact E2.
      * apply b_sections; [lia|exact Ll|lia|]. intros i h c x Hi Hc Hx. destruct (D2 i x Hx) as (h1 & c1 & Y1 & Y2 & Y3 & _). assert (h1 = h) by congruence. assert (c1 = c) by congruence. subst. exact Y3.
      * apply (put_at _ w1 _ _ _ _ G O). rewrite O2. change (w_out (with_counts (w_put w1 ?x) _ _)) with (w_out w1 ++ x). rewrite <- app_assoc. reflexivity.
Qed.
Lemma block_done nm cs a c v b ra r1 R m w ws d : here cs a c v b ra r1 R -> a <> [] -> winv R m a ra w ->
  (forall s, named s = true -> r_off R s <> 0 -> In (RIndex s) cs) ->
  (forall s, In (Some s) (headers cs) -> r_off R SShstrtab <> 0) -> (r_off R SShndx <> 0 -> r_num R SSymtab * 4 < 2 ^ 32) ->
  block nm R m a c v ws d -> done R m a c v ra r1 w ws.
Proof.
  intros H Na W HN HS HX B. assert (Nf : c <> RFileHeader).
  { intros ->. apply Na. exact (io_header _ (h_order _ _ _ _ _ _ _ _ H) a b (h_cs _ _ _ _ _ _ _ _ H)). }
  destruct B.
  - eapply bk_range; eassumption.
  - eapply bk_until; eassumption.
  - congruence.
  - eapply bk_segments; eassumption.
  - eapply (bk_sections nm); try eassumption. apply b_no_sections. assumption.
  - eapply (bk_sections nm); try eassumption. apply b_sections; eassumption.
  - eapply (bk_strings nm); try eassumption. apply b_no_strings. assumption.
  - eapply (bk_strings nm); try eassumption. apply b_strings. assumption.
  - eapply (bk_symtab nm); try eassumption. apply b_no_symtab; assumption.
  - eapply (bk_symtab nm); try eassumption. apply b_symtab; assumption.
  - eapply (bk_shndx nm); try eassumption. apply b_no_shndx. assumption.
  - eapply (bk_shndx nm); try eassumption. apply b_shndx; assumption.
  - eapply (bk_dynamic nm); try eassumption. apply b_dynamic. eassumption.
  - eapply bk_hash; eassumption.
  - eapply bk_gnu_hash; eassumption.
  - eapply (bk_versym nm); try eassumption. apply b_no_versym. assumption.
  - eapply (bk_versym nm); try eassumption. apply b_versym; assumption.
  - eapply bk_verdef; eassumption.
  - eapply bk_verneed; eassumption.
  - eapply bk_attributes; eassumption.
  - eapply bk_relocations; eassumption.
  - eapply bk_comdat; eassumption.
  - eapply (bk_other nm); try eassumption. apply b_other; assumption.
Qed.
(** the same with the write calls of each reserve call kept apart *)
Inductive blocks_w (nm : slot -> Z -> Prop) (R : rst) (x : across) : list rcmd -> list (rcmd * list wcmd) -> list Z -> list bytes -> Prop :=
| bw_nil a : blocks_w nm R x a [] [] []
| bw_cons a c w st v vs d ds : block nm R x a c v w d -> blocks_w nm R x (a ++ [c]) st vs ds -> blocks_w nm R x a ((c, w) :: st) (v :: vs) (d :: ds).
Lemma bw_blocks nm R x a st vs ds : blocks_w nm R x a st vs ds -> blocks nm R x a (map fst st) vs (flat_map snd st) ds.
Proof. induction 1; cbn [map flat_map fst snd]; [apply bs_nil|apply bs_cons; assumption]. Qed.
Lemma blocks_bw nm R x a cs vs ws ds : blocks nm R x a cs vs ws ds -> exists st, map fst st = cs /\ flat_map snd st = ws /\ blocks_w nm R x a st vs ds.
Proof.
  induction 1 as [a|a c cs v vs w ws d ds B _ IH]; [exists []; repeat split; constructor|]. destruct IH as (st & E1 & E2 & B2).
  exists ((c, w) :: st). cbn [map flat_map fst snd]. rewrite E1, E2. split; [reflexivity|]. split; [reflexivity|]. apply bw_cons; assumption.
Qed.
Section Whole.
Context (is64 : bool) (e : endian) (cs' : list rcmd) (vs : list Z) (R : rst).
Local Notation cs := (RFileHeader :: cs').
Context (Ord : in_order cs) (Run : r_run (r_new is64 e) cs = Ok (vs, R)).
Lemma calls_tail : Forall call_ok cs' /\ zlen cs' < 2 ^ 32 - 1.
Proof. pose proof (io_calls _ Ord) as C. pose proof (io_few _ Ord) as L. rewrite zlen_cons in L. split; [exact (Forall_inv_tail C)|lia]. Qed.
Lemma make_here a c b : cs = a ++ c :: b -> a <> [] -> exists va v vb ra r1, r_run (r_new is64 e) a = Ok (va, ra) /\ r_exec ra c = Ok (v, r1) /\
  r_run r1 b = Ok (vb, R) /\ vs = va ++ v :: vb /\ here cs a c v b ra r1 R.
Proof.
  intros E Na. pose proof Run as Q. rewrite E in Q. apply run_split in Q. destruct Q as (va & ra & v & r1 & vb & H1 & H2 & H3 & H4).
  exists va, v, vb, ra, r1. repeat (split; [assumption|]). destruct a as [|c0 a]; [congruence|]. assert (c0 = RFileHeader) by (cbn [app] in E; congruence). subst c0.
  assert (E' : cs' = a ++ c :: b) by (cbn [app] in E; congruence). destruct calls_tail as (C & L). pose proof C as C'. rewrite E' in C. apply Forall_app in C. destruct C as (C & _).
  constructor.
  - exact E.
  - exact Ord.
  - apply (inv_run is64 e a va); [exact H1|exact C|]. pose proof L as L'. rewrite E', zlen_app in L'. pose proof (zlen_nonneg (c :: b)). lia.
  - apply exec_after. exact H2.
  - exists vb. exact H3.
  - apply (inv_run is64 e cs' vs); assumption.
Qed.
Lemma final : inv cs R.
Proof. destruct calls_tail. apply (inv_run is64 e cs' vs); assumption. Qed.
Lemma shndx_call : In (PTable SShndx) (parts_of cs) -> In RShndx cs.
Proof.
  intro Q. unfold parts_of in Q. apply in_flat_map in Q. destruct Q as (c & Hc & Q). pose proof (io_calls _ Ord) as C. rewrite Forall_forall in C. specialize (C c Hc).
  destruct c; cbn [part_of] in Q; try contradiction; destruct Q as [Q|[]]; try discriminate.
  - injection Q as ->. cbn [call_ok] in C. destruct C as [C|[C|[]]]; discriminate.
  - exact Hc.
  - injection Q as ->. cbn [call_ok] in C. destruct C as [C|[C|[C|[]]]]; discriminate.
Qed.
Lemma part_dec (p q : part) : {p = q} + {p <> q}.
Proof. decide equality. apply slot_eq_dec. Qed.
Lemma shndx_in : r_off R SShndx <> 0 -> exists a b, cs = a ++ RShndx :: b /\ a <> [].
Proof.
  intro H. assert (In RShndx cs) as I.
  { destruct (in_dec part_dec (PTable SShndx) (parts_of cs)) as [I|I]; [exact (shndx_call I)|]. destruct H. exact (i_off _ _ final _ I). }
  apply in_split in I. destruct I as (a & b & E). exists a, b. split; [exact E|]. intros ->. discriminate.
Qed.
Lemma symbols_app s a b : symbols s (a ++ b) = symbols s a + symbols s b.
Proof. unfold symbols. rewrite filter_app, zlen_app. reflexivity. Qed.
Lemma symbols_none b : Forall (fun c => symbol_of c <> Some SSymtab /\ c <> RRequire SShndx) b -> symbols SSymtab b = 0.
Proof.
  induction 1 as [|c b (Hc & _) Hb IH]; [reflexivity|]. change (c :: b) with ([c] ++ b). rewrite symbols_app, IH. destruct c; try reflexivity. destruct Hc. reflexivity.
Qed.
Lemma shndx_small : r_off R SShndx <> 0 -> r_num R SSymtab * 4 < 2 ^ 32.
Proof.
  intro H. destruct (shndx_in H) as (a & b & E & Na). destruct (io_shndx _ Ord a b E) as (_ & S1 & S2).
  destruct (i_num _ _ final SSymtab (or_introl eq_refl)) as (N & _). rewrite E in N. change (RShndx :: b) with ([RShndx] ++ b) in N. rewrite !symbols_app, (symbols_none b S1) in N. change (symbols SSymtab [RShndx]) with 0 in N. pose proof (symbols_nonneg SSymtab a). lia.
Qed.
Lemma shndx_need : r_off R SShndx <> 0 -> r_need R SShndx = true.
Proof.
  intro H. destruct (shndx_in H) as (a & b & E & Na). destruct (make_here a _ b E Na) as (va & v & vb & ra & r1 & _ & _ & _ & _ & Hh).
  rewrite (here_need _ _ _ _ _ _ _ Hh). pose proof (here_off _ _ _ _ _ _ _ _ SShndx Hh eq_refl) as Ho.
  pose proof (h_after _ _ _ _ _ _ _ _ Hh) as (A0 & [(Z0 & -> & ->)|(Z0 & A & ->)]); [congruence|]. exact Z0.
Qed.
Lemma shstrtab_placed s : In (Some s) (headers cs) -> r_off R SShstrtab <> 0.
Proof.
  intro H. assert (I : In (RIndex s) cs).
  { unfold headers in H. apply in_flat_map in H. destruct H as (c & Hc & Q). destruct c; cbn [In] in Q; try contradiction; destruct Q as [Q|[]]; try discriminate. injection Q as ->. exact Hc. }
  pose proof (io_names _ Ord s I) as J. apply in_split in J. destruct J as (a & b & E).
  assert (Na : a <> []) by (intros ->; discriminate).
  destruct (make_here a _ b E Na) as (va & v & vb & ra & r1 & _ & _ & _ & _ & Hh).
  pose proof (io_shstrtab _ Ord a b E) as Nb. rewrite Forall_forall in Nb. rewrite E in I. apply in_app_or in I.
  assert (Ia : In (RIndex s) a) by (destruct I as [I|[I|I]]; [exact I|discriminate|destruct (Nb _ I s eq_refl)]).
  assert (Hd : headers a <> []).
  { intro Q. assert (In (Some s) (headers a)) as Y; [|rewrite Q in Y; destruct Y]. unfold headers. apply in_flat_map. exists (RIndex s). split; [exact Ia|left; reflexivity]. }
  destruct (i_secs _ _ (h_inv _ _ _ _ _ _ _ _ Hh)) as ([(_ & K)|K] & _); [congruence|]. pose proof (zlen_nonneg (headers a)).
  rewrite (here_off _ _ _ _ _ _ _ _ SShstrtab Hh eq_refl). pose proof (i_len _ _ (h_inv _ _ _ _ _ _ _ _ Hh)) as Pl.
  pose proof (h_after _ _ _ _ _ _ _ _ Hh) as (A0 & [(Z0 & _)|(Z0 & n & d & t & _ & -> & _ & ->)]).
  - unfold strings_needed in Z0. destruct (Z.eqb_spec (r_secs ra) 0); [lia|discriminate].
  - proj. rewrite upd_same. lia.
Qed.
Context (HN : forall s, named s = true -> r_off R s <> 0 -> In (RIndex s) cs).
Lemma rest_ok nm m st : forall a va ra vb w ds, cs = a ++ map fst st -> a <> [] -> r_run (r_new is64 e) a = Ok (va, ra) -> r_run ra (map fst st) = Ok (vb, R) -> winv R m a ra w ->
  blocks_w nm R m a st vb ds ->
  exists w' ds' F, w_run R w (flat_map snd st) = Ok w' /\ w_out w' = w_out w ++ F /\ zlen (w_out w') = r_len R /\ blocks_w (name_at R) R m a st vb ds' /\ lays (r_len ra) vb ds' F.
Proof.
  induction st as [|[c w0] st IH]; intros a va ra vb w ds E Na Ra Rb W B.
  - inversion B; subst. cbn [r_run map] in Rb. assert (R = ra) by congruence. subst ra. exists w, [], []. cbn [w_run flat_map]. rewrite app_nil_r.
    split; [reflexivity|]. split; [reflexivity|]. split; [exact (wi_len _ _ _ _ _ W)|]. split; constructor.
  - cbn [map fst flat_map snd] in *. set (b := map fst st) in *. inversion B as [|a0 c0 w00 st0 v vs0 d ds0 B1 B2]; subst a0 c0 w00 st0 vb ds.
    destruct (make_here a c b E Na) as (va' & v' & vb' & ra' & r1 & H1 & H2 & H3 & H4 & Hh). assert (ra' = ra) by congruence. subst ra'.
    cbn [r_run] in Rb. rewrite H2 in Rb. cbn [bind] in Rb. rewrite H3 in Rb. cbn [bind] in Rb. assert (v' = v /\ vb' = vs0) as (-> & ->) by (split; congruence).
    destruct (block_done nm _ _ _ _ _ _ _ _ m w w0 d Hh Na W HN shstrtab_placed shndx_small B1) as (w1 & d1 & R1 & W1 & K1 & P1).
    destruct (IH (a ++ [c]) (va ++ [v]) r1 vs0 w1 ds0) as (w2 & ds2 & F & R2 & O2 & L2 & K2 & P2); [rewrite <- app_assoc; exact E|destruct a; discriminate| |exact H3|exact W1|exact B2|].
    + rewrite run_app, Ra. cbn [bind r_run]. rewrite H2. reflexivity.
    + pose proof (wi_len _ _ _ _ _ W) as L0. pose proof (wi_len _ _ _ _ _ W1) as L1. destruct P1 as [(G & O1)|(-> & O1)].
      * exists w2, (d1 :: ds2), (zeros (v - r_len ra) ++ d1 ++ F). rewrite wrun_app, R1. cbn [bind]. split; [exact R2|].
        split; [rewrite O2, O1, <- !app_assoc; reflexivity|]. split; [exact L2|]. split; [apply bw_cons; assumption|].
        apply lays_put; [exact G|]. replace (v + zlen d1) with (r_len r1); [exact P2|]. rewrite <- L1, O1, !zlen_app, zlen_zeros by lia. lia.
      * exists w2, ([] :: ds2), F. rewrite wrun_app, R1. cbn [bind]. split; [exact R2|]. split; [rewrite O2, O1; reflexivity|]. split; [exact L2|].
        split; [apply bw_cons; assumption|]. apply lays_skip. replace (r_len ra) with (r_len r1); [exact P2|]. rewrite <- L1, O1. exact L0.
Qed.
End Whole.
Lemma writer_okw is64 e w00 st vs R nm m ds : in_order (RFileHeader :: map fst st) -> r_run (r_new is64 e) (RFileHeader :: map fst st) = Ok (vs, R) ->
  (forall s, named s = true -> r_off R s <> 0 -> In (RIndex s) (RFileHeader :: map fst st)) -> blocks_w nm R m [] ((RFileHeader, w00) :: st) vs ds ->
  exists w ds', w_run R (w_start R) (w00 ++ flat_map snd st) = Ok w /\ zlen (w_out w) = r_len R /\ blocks_w (name_at R) R m [] ((RFileHeader, w00) :: st) vs ds' /\ lays 0 vs ds' (w_out w).
Proof.
  set (cs' := map fst st). set (ws0 := flat_map snd st).
  intros Ord Run HN B. inversion B as [|a0 c0 w0 st0 v vs0 d ds0 B1 B2]; subst a0 c0 w0 st0 vs ds. cbn [app] in B2.
  pose proof Run as Q. cbn [r_run] in Q. mb Q. destruct a as [v1 r1]. mb Q. destruct a as [vb R1]. assert (v1 = v /\ vb = vs0 /\ R1 = R) as (-> & -> & ->) by (split; [|split]; congruence).
  clear Q. pose proof (exec_after _ _ _ _ E) as A. cbn [after] in A. destruct A as (_ & A1 & A2).
  inversion B1 as [| |v2 h2 d2 Hm He Hs| | | | | | | | | | | | | | | | | | | |c2 v2 C1 C2]; subst; [|contradiction].
  match goal with |- context [w_run R (w_start R) ([?c] ++ ws0)] => change ([c] ++ ws0) with (c :: ws0) end.
  pose proof (header_len _ _ _ _ _ He) as Lh.
  assert (K : r_is64 R = is64).
  { refine (run_keep r_is64 (fun _ => True) cs' _ _ _ _ _ E0); [|apply Forall_forall; intros; exact I]. intros r c v0 r' Q _. apply (after_const _ _ _ _ Q). }
  assert (X : w_exec R (w_start R) (WFileHeader h2) = Ok (with_mips (w_put (w_start R) d) (r_is64 R && (match r_end R with Little => true | Big => false end) && (fh_machine h2 =? 8)))).
  { cbn [w_exec]. unfold w_file_header. change (zlen (w_out (w_start R)) =? 0) with true. cbn [guard bind].
    replace (negb (r_is64 R) && (4294967295 <? r_len R)) with false; [rewrite He; reflexivity|].
    destruct (r_is64 R); [reflexivity|]. cbn [negb andb]. specialize (Hs eq_refl). destruct (Z.ltb_spec 4294967295 (r_len R)); [lia|reflexivity]. }
  match type of X with _ = Ok ?x => set (w1 := x) in * end.
  assert (E1 : r_run (r_new is64 e) [RFileHeader] = Ok ([0], with_len (r_new is64 e) (ehdr_size (r_is64 (r_new is64 e))))) by (cbn [r_run]; rewrite E; reflexivity).
  refine ((fun Wi => _) _).
  { destruct (rest_ok is64 e cs' _ R Ord Run HN nm m st [RFileHeader] _ _ vs0 w1 ds0 eq_refl ltac:(discriminate) E1 E0 Wi B2) as (w2 & ds2 & F & R2 & O2 & L2 & K2 & P2).
    exists w2, (d :: ds2). cbn [w_run]. rewrite X. cbn [bind]. split; [exact R2|]. split; [exact L2|]. split.
    + apply bw_cons; [|exact K2]. apply b_file_header; first [assumption|reflexivity].
    + rewrite O2. change (w_out w1 ++ F) with (zeros (0 - 0) ++ d ++ F). apply lays_put; [lia|]. rewrite Lh, K. exact P2. }
  constructor.
    + cbn. cbn in Lh. rewrite Lh, K. reflexivity.
    + intros _. symmetry. exact Hm.
    + reflexivity.
    + split; reflexivity.
    + reflexivity.
    + reflexivity.
    + reflexivity.
    + intros [Q|[]]; discriminate.
    + reflexivity.
    + exact (shndx_need is64 e cs' _ R Ord Run).
Qed.
Lemma writer_ok is64 e cs' vs R nm m ws ds : in_order (RFileHeader :: cs') -> r_run (r_new is64 e) (RFileHeader :: cs') = Ok (vs, R) ->
  (forall s, named s = true -> r_off R s <> 0 -> In (RIndex s) (RFileHeader :: cs')) -> blocks nm R m [] (RFileHeader :: cs') vs ws ds ->
  exists w ds', w_run R (w_start R) ws = Ok w /\ zlen (w_out w) = r_len R /\ blocks (name_at R) R m [] (RFileHeader :: cs') vs ws ds' /\ lays 0 vs ds' (w_out w).
Proof.
  intros Ord Run HN B. apply blocks_bw in B. destruct B as ([|[c w0] st] & E1 & E2 & B); [discriminate|]. cbn [map fst flat_map snd] in E1, E2.
  assert (c = RFileHeader /\ map fst st = cs') as (-> & Ec) by (split; congruence). clear E1. subst ws cs'.
  destruct (writer_okw is64 e w0 st vs R nm m ds Ord Run HN B) as (w & ds' & H1 & H2 & H3 & H4). exists w, ds'. split; [exact H1|]. split; [exact H2|]. split; [|exact H4].
  exact (bw_blocks _ _ _ _ _ _ _ H3).
Qed.
(** * Reading the file back *)
Lemma lays_holds pos vs ds F : lays pos vs ds F -> 0 <= pos -> forall i v d, zget vs i = Some v -> zget ds i = Some d -> d <> [] -> pos <= v /\ holds F (v - pos) d.
Proof.
  induction 1 as [pos|pos v vs ds F H IH|pos v vs d ds F Hp H IH]; intros P i v0 d0 Hv Hd Nd.
  - apply zget_In in Hv. destruct Hv.
  - apply zget_Some_lt in Hv as Bi. destruct (Z.eq_dec i 0) as [->|Ni]; [rewrite zget_0 in Hd; congruence|].
    rewrite zget_S in Hv by lia. rewrite zget_S in Hd by lia. exact (IH P (i - 1) v0 d0 Hv Hd Nd).
  - apply zget_Some_lt in Hv as Bi. destruct (Z.eq_dec i 0) as [->|Ni].
    + rewrite zget_0 in Hv. rewrite zget_0 in Hd. assert (v0 = v) by congruence. assert (d0 = d) by congruence. subst. split; [exact Hp|]. exists (zeros (v - pos)), F. split; [reflexivity|apply zlen_zeros; lia].
    + rewrite zget_S in Hv by lia. rewrite zget_S in Hd by lia. pose proof (zlen_nonneg d). destruct (IH ltac:(lia) (i - 1) v0 d0 Hv Hd Nd) as (Q & x & y & E & L).
      split; [lia|]. exists (zeros (v - pos) ++ d ++ x), y. split; [rewrite E, <- !app_assoc; reflexivity|]. rewrite !zlen_app, zlen_zeros, L by lia. lia.
Qed.
Lemma blocks_len nm R x a cs vs ws ds : blocks nm R x a cs vs ws ds -> zlen vs = zlen cs /\ zlen ds = zlen cs.
Proof. induction 1 as [|a c cs v vs w ws d ds B Bs (IH1 & IH2)]; [split; reflexivity|]. rewrite !zlen_cons. lia. Qed.
Lemma blocks_at nm R x a cs vs ws ds : blocks nm R x a cs vs ws ds -> forall i c, zget cs i = Some c ->
  exists v w1 w w2 d, ws = w1 ++ w ++ w2 /\ zget vs i = Some v /\ zget ds i = Some d /\ block nm R x (a ++ ztake i cs) c v w d.
Proof.
  induction 1 as [|a c cs v vs w ws d ds B Bs IH]; intros i c0 Hi.
  - apply zget_In in Hi. destruct Hi.
  - apply zget_Some_lt in Hi as Bi. destruct (Z.eq_dec i 0) as [->|Ni].
    + rewrite zget_0 in Hi. assert (c0 = c) by congruence. subst. exists v, [], w, ws, d. rewrite ztake_0, app_nil_r, !zget_0. repeat (split; [reflexivity|]). exact B.
    + rewrite zget_S in Hi by lia. destruct (IH _ _ Hi) as (v1 & w1 & w2 & w3 & d1 & E & Hv & Hd & B1). exists v1, (w ++ w1), w2, w3, d1.
      split; [rewrite E, !app_assoc; reflexivity|]. rewrite !zget_S by lia. split; [exact Hv|]. split; [exact Hd|].
      replace (ztake i (c :: cs)) with (c :: ztake (i - 1) cs); [rewrite <- app_assoc in B1; exact B1|].
      unfold ztake. replace (Z.to_nat i) with (S (Z.to_nat (i - 1))) by lia. reflexivity.
Qed.
Section Read.
Context (is64 : bool) (e : endian) (cs' : list rcmd) (vs : list Z) (R : rst).
Local Notation cs := (RFileHeader :: cs').
Context (Ord : in_order cs) (Run : r_run (r_new is64 e) cs = Ok (vs, R)).
Lemma run_const : r_is64 R = is64 /\ r_end R = e.
Proof.
  split.
  - refine (run_keep r_is64 (fun _ => True) cs _ _ _ _ _ Run); [|apply Forall_forall; intros; exact I]. intros r c v0 r' Q _. apply (after_const _ _ _ _ Q).
  - refine (run_keep r_end (fun _ => True) cs _ _ _ _ _ Run); [|apply Forall_forall; intros; exact I]. intros r c v0 r' Q _. apply (after_const _ _ _ _ Q).
Qed.
Lemma split_at {X} (l : list X) i x : zget l i = Some x -> exists b, l = ztake i l ++ x :: b.
Proof. intro H. apply zdrop_cons in H as E. exists (zdrop (i + 1) l). rewrite <- E. unfold ztake, zdrop. symmetry. apply firstn_skipn. Qed.
(** the call at [i], with the states around it *)
Lemma here_at i c : zget cs i = Some c -> 0 < i -> exists b v ra r1, here cs (ztake i cs) c v b ra r1 R /\ zget vs i = Some v.
Proof.
  intros H Hi. destruct (split_at _ _ _ H) as (b & E). apply zget_Some_lt in H as B.
  assert (L : zlen (ztake i cs) = i) by (apply zlen_ztake; lia).
  destruct (make_here is64 e cs' vs R Ord Run _ _ _ E) as (va & v & vb & ra & r1 & H1 & H2 & H3 & H4 & Hh).
  - intro Q. rewrite Q in L. change (zlen (@nil rcmd)) with 0 in L. lia.
  - exists b, v, ra, r1. split; [exact Hh|]. apply run_len in H1. rewrite H4. apply zget_mid. lia.
Qed.
Lemma in_at c : In c cs -> c <> RFileHeader -> exists i, zget cs i = Some c /\ 0 < i.
Proof.
  intros H N. apply In_zget in H. destruct H as (i & H). exists i. split; [exact H|]. apply zget_Some_lt in H as B. destruct (Z.eq_dec i 0) as [->|]; [|lia].
  rewrite zget_0 in H. congruence.
Qed.
Lemma segs_at : r_phoff R = 0 /\ r_segs R = 0 \/ exists i n, zget cs i = Some (RProgramHeaders n) /\ 0 < i /\ zget vs i = Some (r_phoff R) /\ r_segs R = n /\ 0 < n < 2 ^ 32 /\ 0 < r_phoff R.
Proof.
  assert (D : (exists n, In (RProgramHeaders n) cs) \/ Forall (fun c => part_of c <> Some PSegments) cs).
  { clear. induction cs as [|c l IH]; [right; constructor|]. destruct IH as [(n & IH)|IH]; [left; exists n; right; exact IH|].
    destruct c; try (right; constructor; [discriminate|exact IH]). left. exists n. left. reflexivity. }
  destruct D as [(n & D)|D].
  - destruct (in_at _ D ltac:(discriminate)) as (i & Hi & Pi). destruct (here_at i _ Hi Pi) as (b & v & ra & r1 & H & Hv).
    destruct (here_ph _ _ _ _ _ _ _ _ H eq_refl) as (P1 & P2). pose proof (b_call _ _ _ _ _ _ _ _ H) as C. cbn [call_ok] in C.
    pose proof (b_pos _ _ _ _ _ _ _ _ H) as Pl.
    pose proof (h_after _ _ _ _ _ _ _ _ H) as (A0 & [(Z0 & -> & ->)|(Z0 & A & ->)]).
    + left. split; [congruence|]. rewrite P2. assert (Q : r_phoff ra = 0 -> r_segs ra = 0); [|auto]. intros _.
      destruct (here_parts _ _ _ _ _ _ _ _ _ H eq_refl) as (N & _). apply parts_not in N.
      destruct (make_here is64 e cs' vs R Ord Run _ _ _ (h_cs _ _ _ _ _ _ _ _ H)) as (va & v' & vb & ra' & r1' & H1 & H2 & H3 & H4 & Hh).
      * intro Q. pose proof (h_inv _ _ _ _ _ _ _ _ H) as J. rewrite Q in J. apply zget_Some_lt in Hi. assert (L : zlen (ztake i cs) = i) by (apply zlen_ztake; lia). rewrite Q in L. change (zlen (@nil rcmd)) with 0 in L. lia.
      * pose proof (h_final _ _ _ _ _ _ _ _ H) as _. 
        assert (r_segs R = 0); [|congruence].
        assert (r_segs ra' = 0) by (refine (run_keep r_segs _ _ _ N _ _ _ H1); intros r c0 v0 r' A Q; apply (frame_ph _ _ _ _ A Q)).
        destruct (here_ph _ _ _ _ _ _ _ _ Hh eq_refl) as (_ & P2'). rewrite P2'. pose proof (h_after _ _ _ _ _ _ _ _ Hh) as (_ & [(_ & _ & ->)|(Z0' & _)]); [assumption|congruence].
    + right. exists i, n. proj_in P1. proj_in P2. assert (L0 : 0 <= n * phdr_size (r_is64 ra)) by (destruct (r_is64 ra); cbn [phdr_size]; lia).
      assert (L1 : 0 <= r_len ra < 2 ^ 64) by lia. pose proof (reserved_ge _ _ _ _ (addr_good _) L1 L0 A) as (G & _).
      split; [exact Hi|]. split; [exact Pi|]. split; [congruence|]. split; [exact P2|]. split; lia.
  - left. split.
    + refine (run_keep r_phoff _ cs _ D _ _ _ Run); intros r c0 v0 r' A Q; apply (frame_ph _ _ _ _ A Q).
    + refine (run_keep r_segs _ cs _ D _ _ _ Run); intros r c0 v0 r' A Q; apply (frame_ph _ _ _ _ A Q).
Qed.
Lemma secs_at : r_shoff R <> 0 -> exists i, zget cs i = Some RSectionHeaders /\ 0 < i /\ zget vs i = Some (r_shoff R) /\
  r_secs R = 1 + zlen (headers (ztake i cs)) /\ 0 < r_shoff R /\ headers cs = headers (ztake i cs).
Proof.
  intro Ns. assert (D : In RSectionHeaders cs \/ Forall (fun c => part_of c <> Some PSections) cs).
  { clear. induction cs as [|c l IH]; [right; constructor|]. destruct IH as [IH|IH]; [left; right; exact IH|].
    destruct c; try (right; constructor; [discriminate|exact IH]). left. left. reflexivity. }
  destruct D as [D|D].
  2:{ destruct Ns. refine (run_keep r_shoff _ cs _ D _ _ _ Run); intros r c0 v0 r' A Q; apply (frame_sh _ _ _ _ A Q). }
  destruct (in_at _ D ltac:(discriminate)) as (i & Hi & Pi). exists i. split; [exact Hi|]. split; [exact Pi|].
  destruct (here_at i _ Hi Pi) as (b & v & ra & r1 & H & Hv). pose proof (b_pos _ _ _ _ _ _ _ _ H) as Pl.
  pose proof (here_sh _ _ _ _ _ _ _ _ H eq_refl) as P1. destruct (i_secs _ _ (h_inv _ _ _ _ _ _ _ _ H)) as (Is & Ib).
  pose proof (h_after _ _ _ _ _ _ _ _ H) as (A0 & [(Z0 & -> & ->)|(Z0 & A & Er)]); [congruence|].
  pose proof (zlen_nonneg (headers (ztake i cs))) as Hn. destruct Is as [(Is & _)|Is]; [congruence|].
  assert (L0 : 0 <= r_secs ra * shdr_size (r_is64 ra)) by (destruct (r_is64 ra); cbn [shdr_size]; lia).
  assert (L1 : 0 <= r_len ra < 2 ^ 64) by lia. pose proof (reserved_ge _ _ _ _ (addr_good _) L1 L0 A) as (G & _).
  destruct (here_secs _ _ _ _ _ _ _ _ H eq_refl) as (Sc & Hh); [subst r1; proj; lia|subst r1; proj; lia|]. subst r1. proj_in P1. proj_in Sc.
  split; [congruence|]. split; [lia|]. split; [lia|exact Hh].
Qed.
Lemma index_zero s : slot_indexed s = true -> r_id R s = None -> r_index R s = 0.
Proof.
  intros Hs. assert (G : forall l r vs R, (r_id r s = None -> r_index r s = 0) -> r_run r l = Ok (vs, R) -> r_id R s = None -> r_index R s = 0).
  { induction l as [|c l IH]; intros r vs0 R0 H0 Hr; cbn [r_run] in Hr; [assert (R0 = r) by congruence; subst; exact H0|].
    mb Hr. destruct a as [v r1]. mb Hr. destruct a as [vb R1]. assert (R1 = R0) by congruence. subst R1. apply (IH r1 vb R0); [|exact E0].
    apply exec_after in E. destruct (is_index c) as [(t & ->)|N].
    - cbn [after] in E. destruct E as (_ & _ & _ & tb & id & _ & Ev & _ & ->). cbv zeta. destruct (slot_indexed t); proj; unfold upd; destruct (slot_beq t s) eqn:Q; try discriminate; exact H0.
    - destruct (frame_id _ _ _ _ E N) as (-> & ->). exact H0. }
  refine (G _ (r_new is64 e) _ _ _ Run). reflexivity.
Qed.
Context (Sec : r_secs R <> 0 -> r_shoff R <> 0).
Lemma layout_good nm x ws ds F : (is64 = false -> r_len R < 2 ^ 32) -> blocks nm R x [] cs vs ws ds -> lays 0 vs ds F -> zlen F = r_len R -> Elf_spec.layout_ok is64 (w_layout R).
Proof.
  intros H32 B L Lf. pose proof (final is64 e cs' vs R Ord Run) as Fi. pose proof (i_len _ _ Fi) as Rl. destruct (i_secs _ _ Fi) as (Is & Ib). pose proof (zlen_nonneg (headers cs)) as Hn.
  assert (W : forall v, 0 <= v <= r_len R -> word_ok is64 v).
  { intros v Hv. unfold word_ok. destruct is64; [lia|]. specialize (H32 eq_refl). lia. }
  assert (Ph : 0 <= r_phoff R <= r_len R /\ u32_ok (r_segs R) /\ (r_segs R > 0 -> r_phoff R > 0)).
  { destruct segs_at as [(-> & ->)|(i & n & Hi & Pi & Hv & -> & Bn & Pp)]; [split; [lia|split; [unfold u32_ok; lia|lia]]|].
    destruct (blocks_at _ _ _ _ _ _ _ _ B i _ Hi) as (v & w1 & w & w2 & d & _ & Hv' & Hd & Bk). assert (v = r_phoff R) by congruence. subst v. cbn [app] in Bk.
    assert (zlen d = n * phdr_size (r_is64 R)) as Ld.
    { inversion Bk; subst; [|discriminate]. rewrite (len_map _ (phdr_size (r_is64 R))) by (intro; apply zlen_enc_phdr). reflexivity. }
    assert (d <> []) by (intros ->; change (zlen (@nil Z)) with 0 in Ld; destruct (r_is64 R); cbn [phdr_size] in Ld; lia).
    destruct (lays_holds _ _ _ _ L ltac:(lia) i _ _ Hv Hd H) as (_ & Hh). apply holds_bounds in Hh. pose proof (zlen_nonneg d). split; [lia|split; [unfold u32_ok; lia|lia]]. }
  assert (Sh : 0 <= r_shoff R <= r_len R).
  { destruct (Z.eq_dec (r_shoff R) 0) as [->|Ns]; [lia|]. destruct (secs_at Ns) as (i & Hi & Pi & Hv & Sc & Ps & _). 
    destruct (blocks_at _ _ _ _ _ _ _ _ B i _ Hi) as (v & w1 & w & w2 & d & _ & Hv' & Hd & Bk). assert (v = r_shoff R) by congruence. subst v. cbn [app] in Bk.
    assert (d <> []).
    { inversion Bk; subst; [congruence| |discriminate]. unfold enc_null_shdr. intro Q. apply (f_equal zlen) in Q. rewrite zlen_app, zlen_enc_shdr in Q. change (zlen (@nil Z)) with 0 in Q. pose proof (zlen_nonneg (concat ds0)). destruct (r_is64 R); cbn [shdr_size] in Q; lia. }
    destruct (lays_holds _ _ _ _ L ltac:(lia) i _ _ Hv Hd H) as (_ & Hh). apply holds_bounds in Hh. pose proof (zlen_nonneg d). lia. }
  assert (Ix : 0 <= r_index R SShstrtab < 2 ^ 32 /\ (r_secs R = 0 -> r_index R SShstrtab = 0)).
  { destruct (r_id R SShstrtab) as [id|] eqn:Eid.
    - destruct (i_idx _ _ Fi SShstrtab) as (I1 & _); [congruence|]. apply In_zget in I1. destruct I1 as (k & Hk). destruct (i_hdr _ _ Fi _ _ Hk) as (_ & I2). rewrite I2 by reflexivity.
      apply zget_Some_lt in Hk. destruct Is as [(_ & Is)|Is]; [rewrite Is in Hk; change (zlen (@nil (option slot))) with 0 in Hk; lia|]. lia.
    - rewrite (index_zero SShstrtab eq_refl Eid). lia. }
  unfold Elf_spec.layout_ok, w_layout. cbn [ly_phoff ly_segment_num ly_shoff ly_section_num ly_shstrtab_index]. unfold u32_ok in *.
  split; [apply W; apply Ph|]. split; [apply W; exact Sh|]. split; [apply Ph|]. split; [lia|]. split; [apply Ix|]. split; [apply Ph|].
  destruct (Z.eqb_spec (r_secs R) 0) as [Q|Q]; [|specialize (Sec Q); lia]. split; [|apply Ix; exact Q].
  destruct (Z.eq_dec (r_shoff R) 0) as [E|Ns]; [exact E|]. destruct (secs_at Ns) as (i & _ & _ & _ & Sc & _). pose proof (zlen_nonneg (headers (ztake i cs))). lia.
Qed.
End Read.
Lemma blocks_split nm R x c1 c c2 : forall a vs ws ds, blocks nm R x a (c1 ++ c :: c2) vs ws ds ->
  exists v1 v v2 w1 w w2 d1 d d2, vs = v1 ++ v :: v2 /\ ws = w1 ++ w ++ w2 /\ ds = d1 ++ d :: d2 /\ zlen v1 = zlen c1 /\ zlen d1 = zlen c1 /\
    blocks nm R x a c1 v1 w1 d1 /\ block nm R x (a ++ c1) c v w d /\ blocks nm R x (a ++ c1 ++ [c]) c2 v2 w2 d2.
Proof.
  induction c1 as [|c0 c1 IH]; intros a vs ws ds B; inversion B as [|a0 c' cs0 v vs0 w ws0 d ds0 B1 B2]; subst.
  - exists [], v, vs0, [], w, ws0, [], d, ds0. rewrite app_nil_r. repeat (split; [reflexivity|]). split; [constructor|]. split; [exact B1|exact B2].
  - destruct (IH _ _ _ _ B2) as (v1 & v' & v2 & w1 & w' & w2 & d1 & d' & d2 & -> & -> & -> & L1 & L2 & K1 & K2 & K3).
    exists (v :: v1), v', v2, (w ++ w1), w', w2, (d :: d1), d', d2. rewrite <- !app_assoc in K2, K3. rewrite <- !app_assoc. rewrite !zlen_cons, L1, L2.
    repeat (split; [reflexivity|]). split; [apply (bs_cons _ _ _ a c0 c1 v v1 w w1); assumption|]. split; [exact K2|]. cbn [app] in K3 |- *. exact K3.
Qed.
Lemma seg_app a b : segment_calls (a ++ b) = segment_calls a ++ segment_calls b. Proof. apply flat_map_app. Qed.
Lemma hdr_app a b : header_calls (a ++ b) = header_calls a ++ header_calls b. Proof. apply flat_map_app. Qed.
Lemma calls_map {X} (C : X -> wcmd) l : (forall x, segment_calls [C x] = [] /\ header_calls [C x] = []) -> segment_calls (map C l) = [] /\ header_calls (map C l) = [].
Proof.
  intro H. induction l as [|x l (IH1 & IH2)]; [split; reflexivity|]. cbn [map]. change (C x :: map C l) with ([C x] ++ map C l). rewrite seg_app, hdr_app, IH1, IH2. destruct (H x) as (-> & ->). split; reflexivity.
Qed.
Lemma verdef_none e ws n aux : verdef_calls e ws n aux -> segment_calls ws = [] /\ header_calls ws = [].
Proof.
  induction 1 as [|d names ws n aux Hc V (IH1 & IH2)|d ws n aux Hc Hn V (IH1 & IH2)]; [split; reflexivity| |split; [exact IH1|exact IH2]].
  change (WVerdef d :: map WVerdaux names ++ ws) with ([WVerdef d] ++ map WVerdaux names ++ ws). rewrite !seg_app, !hdr_app, IH1, IH2.
  destruct (calls_map WVerdaux names) as (-> & ->); [split; reflexivity|]. split; reflexivity.
Qed.
Lemma verneed_none e ws n aux : verneed_calls e ws n aux -> segment_calls ws = [] /\ header_calls ws = [].
Proof.
  induction 1 as [|d l ws n aux Hc V (IH1 & IH2)]; [split; reflexivity|].
  change (WVerneed d :: map WVernaux l ++ ws) with ([WVerneed d] ++ map WVernaux l ++ ws). rewrite !seg_app, !hdr_app, IH1, IH2.
  destruct (calls_map WVernaux l) as (-> & ->); [split; reflexivity|]. split; reflexivity.
Qed.
Lemma block_calls nm R x a c v ws d : block nm R x a c v ws d ->
  (part_of c <> Some PSegments -> segment_calls ws = []) /\ (part_of c <> Some PSections -> header_calls ws = []).
Proof.
  assert (M : forall (X : Type) w0 (C : X -> wcmd) l, segment_calls [w0] = [] -> header_calls [w0] = [] -> (forall x, segment_calls [C x] = [] /\ header_calls [C x] = []) ->
    segment_calls (w0 :: map C l) = [] /\ header_calls (w0 :: map C l) = []).
  { intros X w0 C l H1 H2 H3. change (w0 :: map C l) with ([w0] ++ map C l). rewrite seg_app, hdr_app, H1, H2. exact (calls_map C l H3). }
  intro B. destruct B; try (split; intros _; reflexivity).
  - split; [intro Q; cbn [part_of] in Q; congruence|]. intros _. change (WAlignProgramHeaders :: map WProgramHeader ps) with ([WAlignProgramHeaders] ++ map WProgramHeader ps).
    rewrite hdr_app. clear. induction ps as [|p ps IH]; [reflexivity|exact IH].
  - split; [|intro Q; cbn [part_of] in Q; congruence]. intros _. change (WNullSectionHeader :: ws) with ([WNullSectionHeader] ++ ws). rewrite seg_app. cbn [app segment_calls flat_map].
    assert (K : forall w, In w ws -> segment_calls [w] = []).
    { intros w Hw. apply In_zget in Hw. destruct Hw as (i & Hi). apply zget_Some_lt in Hi as Bi. destruct (zget_lt_Some (headers a) i) as (h & Hh); [lia|].
      destruct (zget_lt_Some ds i) as (dd & Hd); [lia|]. specialize (H2 i h w dd Hh Hi Hd). inversion H2; subst; reflexivity. }
    clear - K. induction ws as [|w ws IH]; [reflexivity|]. change (w :: ws) with ([w] ++ ws). change (segment_calls ([w] ++ ws) = []). rewrite seg_app, (K w) by (left; reflexivity). apply IH. intros y Hy. apply K. right. exact Hy.
  - edestruct M as (-> & ->); [reflexivity|reflexivity|split; reflexivity|]. split; reflexivity.
  - edestruct M as (-> & ->); [reflexivity|reflexivity|split; reflexivity|]. split; reflexivity.
  - edestruct M as (-> & ->); [reflexivity|reflexivity|split; reflexivity|]. split; reflexivity.
  - destruct (verdef_none _ _ _ _ H) as (E1 & E2). change (WAlignVer SVerdef :: ws) with ([WAlignVer SVerdef] ++ ws). rewrite seg_app, hdr_app, E1, E2. split; reflexivity.
  - destruct (verneed_none _ _ _ _ H) as (E1 & E2). change (WAlignVer SVerneed :: ws) with ([WAlignVer SVerneed] ++ ws). rewrite seg_app, hdr_app, E1, E2. split; reflexivity.
  - edestruct M as (-> & ->); [reflexivity|reflexivity|split; reflexivity|]. split; reflexivity.
  - edestruct M as (-> & ->); [reflexivity|reflexivity|split; reflexivity|]. split; reflexivity.
Qed.
Lemma blocks_calls nm R x a cs vs ws ds : blocks nm R x a cs vs ws ds ->
  (Forall (fun c => part_of c <> Some PSegments) cs -> segment_calls ws = []) /\ (Forall (fun c => part_of c <> Some PSections) cs -> header_calls ws = []).
Proof.
  induction 1 as [|a c cs v vs w ws d ds B Bs (IH1 & IH2)]; [split; reflexivity|]. destruct (block_calls _ _ _ _ _ _ _ _ B) as (K1 & K2).
  split; intro F; [rewrite seg_app|rewrite hdr_app].
  - rewrite K1, IH1; [reflexivity|exact (Forall_inv_tail F)|exact (Forall_inv F)].
  - rewrite K2, IH2; [reflexivity|exact (Forall_inv_tail F)|exact (Forall_inv F)].
Qed.
Lemma seg_map ps : segment_calls (map WProgramHeader ps) = ps.
Proof. induction ps as [|p ps IH]; [reflexivity|]. change (p :: segment_calls (map WProgramHeader ps) = p :: ps). rewrite IH. reflexivity. Qed.
Lemma sections_read R hs ws ds : zlen ws = zlen hs -> zlen ds = zlen hs ->
  (forall i h w d, zget hs i = Some h -> zget ws i = Some w -> zget ds i = Some d -> header_call (name_at R) R h w d) ->
  exists ss, ds = map (enc_shdr (r_is64 R) (r_end R)) ss /\ Forall2 (header_written R) (header_calls ws) ss /\ zlen ss = zlen hs.
Proof.
  revert ws ds. induction hs as [|h hs IH]; intros ws ds L1 L2 H.
  - change (zlen (@nil (option slot))) with 0 in *. apply zlen_0_nil in L1, L2. subst. exists []. split; [reflexivity|]. split; [constructor|reflexivity].
  - rewrite zlen_cons in L1, L2. pose proof (zlen_nonneg hs). destruct ws as [|w ws]; [change (zlen (@nil wcmd)) with 0 in L1; lia|]. destruct ds as [|d ds]; [change (zlen (@nil bytes)) with 0 in L2; lia|].
    rewrite zlen_cons in L1. rewrite zlen_cons in L2. destruct (IH ws ds) as (ss & -> & F & L3); [lia|lia| |].
    + intros i h0 w0 d0 Hh Hw Hd. apply zget_Some_lt in Hh as Bi. apply (H (i + 1)); rewrite zget_S by lia; replace (i + 1 - 1) with i by lia; assumption.
    + specialize (H 0 h w d (zget_0 _ _) (zget_0 _ _) (zget_0 _ _)). change (w :: ws) with ([w] ++ ws). rewrite hdr_app. inversion H; subst.
      * exists (h0 :: ss). split; [reflexivity|]. split; [constructor; [reflexivity|exact F]|]. rewrite !zlen_cons. lia.
      * exists (slot_header R s name addr n :: ss). split; [reflexivity|]. split; [constructor; [|exact F]|rewrite !zlen_cons; lia]. exists name. split; [assumption|split; [assumption|reflexivity]].
Qed.
Lemma parts_only (l1 l2 : list rcmd) c p : NoDup (parts_of (l1 ++ c :: l2)) -> part_of c = Some p -> Forall (fun c => part_of c <> Some p) l1 /\ Forall (fun c => part_of c <> Some p) l2.
Proof.
  intros N P. unfold parts_of in N. rewrite flat_map_app in N. cbn [flat_map] in N. rewrite P in N. cbn [app] in N. apply nodup_mid in N. destruct N as (N1 & N2).
  split; apply parts_not; assumption.
Qed.
Lemma tables_good is64 e cs' vs R x h ws ds F : in_order (RFileHeader :: cs') -> r_run (r_new is64 e) (RFileHeader :: cs') = Ok (vs, R) -> (r_secs R <> 0 -> r_shoff R <> 0) ->
  blocks (name_at R) R x [] (RFileHeader :: cs') vs (WFileHeader h :: ws) ds -> lays 0 vs ds F ->
  has_header is64 e F h (w_layout R) /\ exists ss, has_tables is64 e F (w_layout R) (segment_calls ws) ss /\ Forall2 (header_written R) (header_calls ws) ss.
Proof.
  intros Ord Run Sec B L. destruct (run_const _ _ _ _ _ Run) as (K1 & K2).
  inversion B as [|a0 c0 cs0 v vs0 w0 ws0 d ds0 B1 B2]; subst a0 c0 cs0 vs ds. cbn [app] in B2.
  inversion B1 as [| |v2 h2 d2 Hm He Hs| | | | | | | | | | | | | | | | | | | |c2 v2 C1 C2]; subst v2 w0; [|contradiction].
  subst d2. assert (ws0 = ws /\ h2 = h) as (-> & ->) by (match goal with H : _ ++ _ = _ |- _ => cbn [app] in H; split; congruence end).
  assert (v = 0).
  { pose proof Run as Q. cbn [r_run] in Q. mb Q. destruct a as [v1 r1]. mb Q. destruct a as [vb R1]. apply exec_after in E. cbn [after] in E. destruct E as (_ & E & _). assert (v1 = v) by congruence. congruence. }
  subst v.
  assert (Hd0 : d <> []).
  { intros ->. apply header_len in He. change (zlen (@nil Z)) with 0 in He. destruct (r_is64 R); cbn [ehdr_size] in He; lia. }
  destruct (lays_holds _ _ _ _ L ltac:(lia) 0 0 d (zget_0 _ _) (zget_0 _ _) Hd0) as (_ & H0). cbn [Z.sub] in H0. change (0 - 0) with 0 in H0.
  assert (F1 : 0 <= 0 <= zlen F) by (pose proof (zlen_nonneg F); lia).
  (* segments *)
  assert (Sg : r_segs R = zlen (segment_calls ws) /\ holds F (r_phoff R) (concat (map (enc_phdr is64 e) (segment_calls ws)))).
  { destruct (segs_at _ _ _ _ _ Ord Run) as [(P1 & P2)|(i & n & Hi & Pi & Hv & P2 & Bn & Pp)].
    - rewrite P1, P2. assert (segment_calls ws = []) as ->; [|split; [reflexivity|apply holds_nil; exact F1]].
      assert (D : (exists n c1 c2, cs' = c1 ++ RProgramHeaders n :: c2) \/ Forall (fun c => part_of c <> Some PSegments) cs').
      { clear. induction cs' as [|c l IH]; [right; constructor|]. destruct IH as [(n & c1 & c2 & ->)|IH]; [left; exists n, (c :: c1), c2; reflexivity|].
        destruct c; try (right; constructor; [discriminate|exact IH]). left. exists n, [], l. reflexivity. }
      destruct D as [(n & c1 & c2 & ->)|D]; [|apply (blocks_calls _ _ _ _ _ _ _ _ B2); exact D].
      destruct (make_here is64 e _ _ R Ord Run (RFileHeader :: c1) (RProgramHeaders n) c2 eq_refl ltac:(discriminate)) as (va & v & vb & ra & r1 & _ & _ & _ & _ & Hh).
      destruct (here_ph _ _ _ _ _ _ _ _ Hh eq_refl) as (Q1 & Q2). pose proof (b_pos _ _ _ _ _ _ _ _ Hh) as Pl. pose proof (b_call _ _ _ _ _ _ _ _ Hh) as Cn. cbn [call_ok] in Cn.
      pose proof (h_after _ _ _ _ _ _ _ _ Hh) as (A0 & [(Z0 & _ & _)|(Z0 & A & Er)]); [|subst r1; proj_in Q2; congruence]. subst n.
      destruct (parts_only (RFileHeader :: c1) c2 _ PSegments (io_once _ Ord) eq_refl) as (G1 & G2).
      destruct (blocks_split _ _ _ c1 _ c2 _ _ _ _ B2) as (v1 & v' & v2 & w1 & w' & w2 & d1 & d' & d2 & _ & -> & _ & _ & _ & X1 & X2 & X3). rewrite !seg_app.
      destruct (blocks_calls _ _ _ _ _ _ _ _ X1) as (Y1 & _). destruct (blocks_calls _ _ _ _ _ _ _ _ X3) as (Y3 & _). rewrite Y1, Y3 by (try exact (Forall_inv_tail G1); exact G2).
      inversion X2 as [| | |v3 ps Q Q'| | | | | | | | | | | | | | | | | | |c3 v3 C3 C4]; subst; [|discriminate]. apply zlen_0_nil in Q. subst ps. reflexivity.
    - destruct (split_at _ _ _ Hi) as (c2 & Ec). destruct (parts_only (ztake i (RFileHeader :: cs')) c2 (RProgramHeaders n) PSegments) as (G1 & G2); [rewrite <- Ec; exact (io_once _ Ord)|reflexivity|].
      assert (Ei : ztake i (RFileHeader :: cs') = RFileHeader :: ztake (i - 1) cs') by (unfold ztake; replace (Z.to_nat i) with (S (Z.to_nat (i - 1))) by lia; reflexivity).
      rewrite Ei in G1, Ec. assert (Ec' : cs' = ztake (i - 1) cs' ++ RProgramHeaders n :: c2) by (cbn [app] in Ec; congruence).
      rewrite Ec' in B2. destruct (blocks_split _ _ _ _ _ c2 _ _ _ _ B2) as (v1 & v' & v2 & w1 & w' & w2 & d1 & d' & d2 & Ev & -> & Ed & Lv & Ld & X1 & X2 & X3). rewrite !seg_app.
      destruct (blocks_calls _ _ _ _ _ _ _ _ X1) as (Y1 & _). destruct (blocks_calls _ _ _ _ _ _ _ _ X3) as (Y3 & _). rewrite Y1, Y3 by (try exact (Forall_inv_tail G1); exact G2).
      rewrite app_nil_r. cbn [app]. apply zget_Some_lt in Hi as Bi. rewrite zlen_cons in Bi. assert (Lt : zlen (ztake (i - 1) cs') = i - 1) by (apply zlen_ztake; lia).
      assert (Hv' : zget (0 :: vs0) i = Some v') by (rewrite zget_S by lia; rewrite Ev; apply zget_mid; lia).
      assert (Hd' : zget (d :: ds0) i = Some d') by (rewrite zget_S by lia; rewrite Ed; apply zget_mid; lia).
      assert (v' = r_phoff R) by congruence. subst v'.
      inversion X2 as [| | |v3 ps Q Q'| | | | | | | | | | | | | | | | | | |c3 v3 C3 C4]; [|subst; discriminate].
      subst v3 d' w'. change (WAlignProgramHeaders :: map WProgramHeader ps) with ([WAlignProgramHeaders] ++ map WProgramHeader ps). rewrite seg_app, seg_map. cbn [app segment_calls flat_map].
      split; [congruence|]. rewrite <- K1, <- K2. destruct (lays_holds _ _ _ _ L ltac:(lia) i _ _ Hv Hd') as (_ & Hh).
      + intro Y. apply (f_equal zlen) in Y. rewrite (len_map _ (phdr_size (r_is64 R))) in Y by (intro; apply zlen_enc_phdr). change (zlen (@nil Z)) with 0 in Y. destruct (r_is64 R); cbn [phdr_size] in Y; lia.
      + rewrite Z.sub_0_r in Hh. exact Hh. }
  (* sections *)
  assert (Ss : exists ss, (r_secs R = 0 /\ ss = [] \/ r_secs R = 1 + zlen ss /\ holds F (r_shoff R) (enc_null_shdr is64 e (w_layout R) ++ concat (map (enc_shdr is64 e) ss))) /\ Forall2 (header_written R) (header_calls ws) ss).
  { destruct (Z.eq_dec (r_shoff R) 0) as [Ez|Ns].
    - destruct (Z.eq_dec (r_secs R) 0) as [Q|Q]; [|specialize (Sec Q); contradiction]. exists []. split; [left; split; [exact Q|reflexivity]|]. assert (header_calls ws = []) as ->; [|constructor].
      assert (D : (exists c1 c2, cs' = c1 ++ RSectionHeaders :: c2) \/ Forall (fun c => part_of c <> Some PSections) cs').
      { clear. induction cs' as [|c l IH]; [right; constructor|]. destruct IH as [(c1 & c2 & ->)|IH]; [left; exists (c :: c1), c2; reflexivity|].
        destruct c; try (right; constructor; [discriminate|exact IH]). left. exists [], l. reflexivity. }
      destruct D as [(c1 & c2 & ->)|D]; [|apply (blocks_calls _ _ _ _ _ _ _ _ B2); exact D].
      destruct (make_here is64 e _ _ R Ord Run (RFileHeader :: c1) RSectionHeaders c2 eq_refl ltac:(discriminate)) as (va & v & vb & ra & r1 & R1 & R2 & R3 & R4 & Hh).
      pose proof (here_sh _ _ _ _ _ _ _ _ Hh eq_refl) as Q1. pose proof (b_pos _ _ _ _ _ _ _ _ Hh) as Pl.
      destruct (parts_only (RFileHeader :: c1) c2 _ PSections (io_once _ Ord) eq_refl) as (G1 & G2).
      destruct (blocks_split _ _ _ c1 _ c2 _ _ _ _ B2) as (v1 & v' & v2 & w1 & w' & w2 & d1 & d' & d2 & Ev & -> & _ & Lv & _ & X1 & X2 & X3). rewrite !hdr_app.
      destruct (blocks_calls _ _ _ _ _ _ _ _ X1) as (_ & Y1). destruct (blocks_calls _ _ _ _ _ _ _ _ X3) as (_ & Y3). rewrite Y1, Y3 by (try exact (Forall_inv_tail G1); exact G2).
      assert (v' = v).
      { assert (zget (0 :: vs0) (1 + zlen c1) = Some v) as Z1 by (rewrite R4; apply zget_mid; apply run_len in R1; rewrite R1, zlen_cons; lia).
        pose proof (zlen_nonneg c1). rewrite zget_S in Z1 by lia. rewrite Ev in Z1. replace (1 + zlen c1 - 1) with (zlen c1) in Z1 by lia. rewrite zget_mid in Z1 by lia. congruence. }
      subst v'.
      pose proof (h_after _ _ _ _ _ _ _ _ Hh) as (A0 & [(Z0 & Zv & _)|(Z0 & A & Er)]).
      + rewrite Zv in X2. clear - X2. inversion X2; subst; [reflexivity|match goal with H : 0 <> 0 |- _ => destruct (H eq_refl) end|discriminate].
      + exfalso. destruct (i_secs _ _ (h_inv _ _ _ _ _ _ _ _ Hh)) as (Is & Ib). pose proof (zlen_nonneg (headers (RFileHeader :: c1))) as Hn. destruct Is as [(Is & _)|Is]; [congruence|].
        assert (L0 : 0 <= r_secs ra * shdr_size (r_is64 ra)) by (destruct (r_is64 ra); cbn [shdr_size]; lia).
        assert (L1 : 0 <= r_len ra < 2 ^ 64) by lia. pose proof (reserved_ge _ _ _ _ (addr_good _) L1 L0 A) as (G & _). subst r1. proj_in Q1. lia.
    - destruct (secs_at _ _ _ _ _ Ord Run Ns) as (i & Hi & Pi & Hv & Sc & Ps & Hh).
      destruct (split_at _ _ _ Hi) as (c2 & Ec). destruct (parts_only (ztake i (RFileHeader :: cs')) c2 RSectionHeaders PSections) as (G1 & G2); [rewrite <- Ec; exact (io_once _ Ord)|reflexivity|].
      assert (Ei : ztake i (RFileHeader :: cs') = RFileHeader :: ztake (i - 1) cs') by (unfold ztake; replace (Z.to_nat i) with (S (Z.to_nat (i - 1))) by lia; reflexivity).
      rewrite Ei in G1, Ec, Sc, Hh. assert (Ec' : cs' = ztake (i - 1) cs' ++ RSectionHeaders :: c2) by (cbn [app] in Ec; congruence).
      rewrite Ec' in B2. destruct (blocks_split _ _ _ _ _ c2 _ _ _ _ B2) as (v1 & v' & v2 & w1 & w' & w2 & d1 & d' & d2 & Ev & -> & Ed & Lv & Ld & X1 & X2 & X3). rewrite !hdr_app.
      destruct (blocks_calls _ _ _ _ _ _ _ _ X1) as (_ & Y1). destruct (blocks_calls _ _ _ _ _ _ _ _ X3) as (_ & Y3). rewrite Y1, Y3 by (try exact (Forall_inv_tail G1); exact G2).
      rewrite app_nil_r. cbn [app]. apply zget_Some_lt in Hi as Bi. rewrite zlen_cons in Bi. assert (Lt : zlen (ztake (i - 1) cs') = i - 1) by (apply zlen_ztake; lia).
      assert (Hv' : zget (0 :: vs0) i = Some v') by (rewrite zget_S by lia; rewrite Ev; apply zget_mid; lia).
      assert (Hd' : zget (d :: ds0) i = Some d') by (rewrite zget_S by lia; rewrite Ed; apply zget_mid; lia).
      assert (v' = r_shoff R) by congruence. subst v'.
      inversion X2 as [| | | | |v3 ws3 ds3 Q1 Q2 Q3 Q4 Q5 Q6| | | | | | | | | | | | | | | | |c3 v3 C3 C4]; [congruence| |subst; discriminate].
      subst v3 d' w'. destruct (sections_read R _ _ _ Q2 Q3 Q4) as (ss & -> & Fs & Ls). cbn [app] in Ls. exists ss. split; [right; split; [lia|]|exact Fs].
      rewrite <- K1, <- K2. destruct (lays_holds _ _ _ _ L ltac:(lia) i _ _ Hv Hd') as (_ & Hx).
      + intro Y. apply (f_equal zlen) in Y. unfold enc_null_shdr in Y. rewrite zlen_app, zlen_enc_shdr in Y. change (zlen (@nil Z)) with 0 in Y. match type of Y with _ + zlen ?q = 0 => pose proof (zlen_nonneg q) end. destruct (r_is64 R); cbn [shdr_size] in Y; lia.
      + rewrite Z.sub_0_r in Hx. exact Hx. }
  destruct Ss as (ss & Ss & Fs). split.
  - exists d. rewrite <- K1, <- K2. split; [exact He|]. split; [exact H0|]. rewrite K1, K2. cbn [w_layout ly_section_num ly_shoff]. intro Gt.
    destruct Ss as [(Ss & _)|(_ & Ss)]; [lia|]. apply holds_app in Ss. apply Ss.
  - exists ss. split; [|exact Fs]. split; [apply Sg|]. split; [apply Sg|]. exact Ss.
Qed.
