(** Lemmas about [elf_write]: the file consists of bytes. *)
From Verif Require Import Base Core_spec Core_proofs Str_spec Str_proofs Buf_proofs Map_proofs Util_proofs File_spec File_proofs Hash_proofs Pod_proofs Elf_proofs ElfR_proofs MachW_proofs.
From Verif Require CoffW_proofs CoffI_proofs.
From Verif Require Import ElfW_spec ElfWR_proofs ElfWB_proofs ElfWC_proofs ElfWT_proofs ElfO_model ElfO_proofs ElfOB_proofs ElfOC_proofs ElfOD_proofs ElfOE_proofs ElfOF_proofs ElfOG_proofs ElfOH_proofs ElfOI_proofs ElfO_spec ElfOJ_proofs.
Notation strtab := Str_model.strtab (only parsing).

(** * The string tables *)
Definition tabs_ok (r : rst) : Prop := forall s, Forall bytes_ok (st_strings (r_tab r s)) /\ bytes_ok (r_data r s).
Lemma add_ok t s v t' : Forall bytes_ok (st_strings t) -> bytes_ok s -> st_add t s = (Ok v, t') -> Forall bytes_ok (st_strings t').
Proof.
  intros H Hs E. unfold st_add in E. destruct (negb _); [discriminate|]. destruct (has_null s); [discriminate|]. unfold insert_full in E. destruct (index_of s (st_strings t)); cbn [andb] in E.
  - assert (st_strings t' = st_strings t) as -> by (inversion E; reflexivity). exact H.
  - assert (st_strings t' = st_strings t ++ [s]) as -> by (destruct (st_in_order t); inversion E; reflexivity). apply Forall_app. split; [exact H|]. constructor; [exact Hs|constructor].
Qed.
Lemma loop_ok ss ids : Forall bytes_ok ss -> forall off prev offs w offs' w' off', bytes_ok w -> write_loop ss ids off prev offs w = Ok (offs', w', off') -> bytes_ok w'.
Proof.
  intro Hs. induction ids as [|id ids IH]; intros off prev offs w offs' w' off' Hw E; cbn [write_loop] in E; [assert (w' = w) by congruence; subst; exact Hw|].
  destruct (zget ss id) as [s|] eqn:Ei; cbn [unwrap bind] in E; [|discriminate]. destruct (ends_with prev s).
  - destruct (psub off (zlen s + 1)); cbn [bind] in E; try discriminate. eapply IH; eassumption.
  - eapply IH; [|exact E]. apply bytes_ok_app. split; [exact Hw|]. apply bytes_ok_app. split; [|repeat constructor; unfold byte_ok; lia]. exact (Forall_zget _ _ _ _ Hs Ei).
Qed.
Lemma write_ok t b n d t' : Forall bytes_ok (st_strings t) -> st_write t b = (Ok n, d, t') -> bytes_ok d /\ st_strings t' = st_strings t.
Proof.
  intros H E. unfold st_write in E. destruct (_ && _); [discriminate|]. destruct (existsb _ _); [discriminate|]. destruct (st_in_order t).
  - destruct (_ =? _); [|discriminate]. destruct (_ <? _); [|discriminate]. assert (d = concat (map (fun s => s ++ [0]) (st_strings t))) as -> by congruence. assert (t' = t) as -> by congruence. split; [|reflexivity].
    apply Forall_concat. apply Forall_map. eapply Forall_impl; [|exact H]. intros s Hs. apply bytes_ok_app. split; [exact Hs|repeat constructor; unfold byte_ok; lia].
  - destruct (st_sort _ _ _ _) as [ids| |]; try discriminate. destruct (write_loop _ _ _ _ _ _) as [[[offs w] off]| |] eqn:El; try discriminate. destruct (off <? _); [|discriminate].
    assert (d = w) as -> by congruence. split; [|inversion E; reflexivity]. eapply loop_ok; [exact H| |exact El]. constructor.
Qed.
Lemma step_tabs r c v r' : after r c v r' -> call_ok c -> tabs_ok r -> tabs_ok r'.
Proof.
  intros A C H s. destruct (H s) as (H1 & H2).
  assert (G : tab_of c = Some s \/ tab_of c <> Some s) by (destruct (tab_of c) as [u|]; [destruct s, u; (left; reflexivity) || (right; discriminate)|right; discriminate]).
  destruct G as [G|G].
  - destruct c; try discriminate G; rename s0 into u; cbn [after call_ok tab_of] in A, C, G.
    + assert (u = s) by congruence. subst u. destruct A as (_ & t & E & ->). proj. rewrite upd_same. split; [|exact H2]. eapply add_ok; [exact H1|apply C|exact E].
    + assert (s = SShstrtab) by congruence. subst s. destruct A as (_ & _ & _ & t & id & E & _ & _ & ->). cbv zeta. destruct (slot_indexed u); (split; [|exact H2]); change (Forall bytes_ok (st_strings t)); (eapply add_ok; [exact H1|apply slot_name_ok|exact E]).
    + assert (u = s) by congruence. subst u. destruct A as (_ & [(_ & _ & ->)|(_ & n & d & t & E & _ & _ & ->)]); [split; assumption|]. destruct (write_ok _ _ _ _ _ H1 E) as (Q1 & Q2). proj. rewrite !upd_same, Q2. split; [exact H1|]. constructor; [unfold byte_ok; lia|exact Q1].
  - rewrite (frame_tab _ _ _ _ s A G). rewrite (frame_data _ _ _ _ s A); [split; assumption|]. intros ->. apply G. reflexivity.
Qed.
Lemma run_tabs cs : forall r vs r', r_run r cs = Ok (vs, r') -> Forall call_ok cs -> tabs_ok r -> tabs_ok r'.
Proof.
  induction cs as [|c cs IH]; intros r vs r' H C T; cbn [r_run] in H; [assert (r' = r) by congruence; subst; exact T|]. destruct (r_exec r c) as [[v r1]| |] eqn:E; cbn [bind] in H; try discriminate. destruct (r_run r1 cs) as [[vs' r2]| |] eqn:E2; cbn [bind] in H; try discriminate.
  assert (r2 = r') by congruence. subst r2. apply exec_after in E. apply Forall_cons_iff in C. destruct C as (C1 & C2). eapply IH; [exact E2|exact C2|]. eapply step_tabs; eassumption.
Qed.
Lemma tabs_new is64 e : tabs_ok (r_new is64 e).
Proof. intro s. split; constructor. Qed.

(** * The encodings *)
Lemma ok_word is64 e v : bytes_ok (enc_word is64 e v). Proof. unfold enc_word. destruct is64; apply bytes_ok_write_u. Qed.
Lemma ok_write_i e n v : bytes_ok (write_i e n v). Proof. apply bytes_ok_write_u. Qed.
Ltac bok := repeat (apply bytes_ok_app; split); first [apply bytes_ok_write_u|apply ok_word|apply ok_write_i|apply bytes_ok_zeros|constructor].
Lemma ok_shdr is64 e s : bytes_ok (enc_shdr is64 e s). Proof. unfold enc_shdr. bok. Qed.
Lemma ok_rel is64 is_rela e m c : bytes_ok (enc_rel is64 is_rela e m c). Proof. unfold enc_rel. destruct is64, is_rela; bok. Qed.
Lemma ok_sym is64 e y : bytes_ok (fst (enc_sym is64 e y)). Proof. unfold enc_sym. cbn [fst]. destruct is64; bok. Qed.
Lemma ok_header is64 e h l b : fhdr_ok is64 h -> enc_file_header is64 e h l = Ok b -> bytes_ok b.
Proof.
  intros H E. unfold enc_file_header in E. destruct (if PN_XNUM <=? _ then _ else _) as [pn| |]; cbn [bind] in E; try discriminate. assert (bytes_ok (enc_ident is64 e h)) as Hi.
  { unfold enc_ident. destruct H as (H1 & H2 & _). repeat (apply bytes_ok_app; split); [apply bytes_ok_forallb; reflexivity|..|apply bytes_ok_zeros]; (constructor; [|constructor]); unfold byte_ok; try destruct is64; try destruct e; try lia; assumption. }
  match type of E with Ok ?x = _ => assert (b = x) as -> by congruence end. apply bytes_ok_app. split; [exact Hi|]. bok.
Qed.

(** * The writer *)
Definition wok (w : wst) : Prop := bytes_ok (w_out w) /\ bytes_ok (w_shndx w).
Lemma wok_put w b : wok w -> bytes_ok b -> wok (w_put w b).
Proof. intros (A & B) H. split; [|exact B]. unfold w_out, w_put, with_v, v_put. cbn. apply bytes_ok_app. split; assumption. Qed.
Lemma wok_align w a w' : wok w -> w_align w a = Ok w' -> wok w'.
Proof.
  intros H E. unfold w_align in E. destruct (1 <? a); [|assert (w' = w) by congruence; subst; exact H]. mb E. unfold w_resize in E. mb E. assert (w' = w_put w (zeros (a0 - zlen (w_out w)))) as -> by congruence. apply wok_put; [exact H|apply bytes_ok_zeros].
Qed.
Lemma wok_at w off a w' : wok w -> w_at w off a = Ok w' -> wok w'.
Proof. intros H E. unfold w_at in E. mb E. mb E. assert (a0 = w') by congruence. subst. eapply wok_align; eassumption. Qed.
Lemma wok_section_header R w s i w' : wok w -> w_section_header R w s = Ok (i, w') -> wok w'.
Proof.
  intros H E. unfold w_section_header in E. cbv zeta in E. mb E. mb E. match type of E with Ok (_, ?x) = _ => assert (w' = x) as -> by congruence end. exact (wok_put w (enc_shdr (r_is64 R) (r_end R) s) H (ok_shdr _ _ _)).
Qed.
Lemma wok_slot R w s a n w' : wok w -> w_slot_header R w s a n = Ok w' -> wok w'.
Proof.
  intros H E. unfold w_slot_header in E. destruct (r_id R s); [|assert (w' = w) by congruence; subst; exact H]. mb E. mb E. mb E. mb E. match goal with G : w_section_header _ _ _ = Ok ?q |- _ => destruct q as [i w2] end. mb E. assert (w2 = w') by congruence. subst. eapply wok_section_header; eassumption.
Qed.
Lemma wok_strings R w s w' : tabs_ok R -> wok w -> w_strings R w s = Ok w' -> wok w'.
Proof. intros T H E. unfold w_strings in E. destruct (_ =? 0); [assert (w' = w) by congruence; subst; exact H|]. mb E. assert (w' = w_put w (r_data R s)) as -> by congruence. apply wok_put; [exact H|apply T]. Qed.
Lemma wok_null R w w' : wok w -> w_null_symbol R w SSymtab = Ok w' -> wok w'.
Proof.
  intros H E. unfold w_null_symbol in E. destruct (_ =? 0); [assert (w' = w) by congruence; subst; exact H|]. mb E. mb E. cbv zeta in E. mb E. pose proof (wok_at _ _ _ _ H E0) as (H1 & H2). pose proof (wok_put a (enc_null_sym (r_is64 R)) (conj H1 H2) (bytes_ok_zeros _)) as (G1 & G2).
  match type of E with Ok ?x = _ => assert (w' = x) as -> by congruence end. destruct (r_off R SShndx =? 0); split; try exact G1; try exact G2. cbn. apply bytes_ok_app. split; [exact G2|apply bytes_ok_write_u].
Qed.
Lemma wok_symbol R w y w' : wok w -> w_symbol R w SSymtab y = Ok w' -> wok w'.
Proof.
  intros H E. unfold w_symbol in E. pose proof (ok_sym (r_is64 R) (r_end R) y) as Ob. destruct (enc_sym (r_is64 R) (r_end R) y) as [b x]. cbn [fst] in Ob. cbv zeta in E. mb E. mb E. pose proof (wok_put w b H Ob) as (G1 & G2).
  match type of E with Ok ?x = _ => assert (w' = x) as -> by congruence end. destruct (r_off R SShndx =? 0); [split; assumption|]. destruct x; (split; [exact G1|]); cbn; apply bytes_ok_app; (split; [exact G2|apply bytes_ok_write_u]).
Qed.
Lemma wok_shndx R w w' : wok w -> w_symtab_shndx R w = Ok w' -> wok w'.
Proof.
  intros H E. unfold w_symtab_shndx in E. destruct (negb _). { match type of E with Ok ?x = _ => assert (w' = x) as -> by congruence end. destruct H. split; [assumption|constructor]. }
  mb E. mb E. pose proof (wok_at _ _ _ _ H E0) as (H1 & H2). pose proof (wok_put a (w_shndx a) (conj H1 H2) H2) as (G1 & G2). match type of E with Ok ?x = _ => assert (w' = x) as -> by congruence end. split; [exact G1|constructor].
Qed.
Lemma wok_file_header R is64 h w : fhdr_ok is64 h -> r_is64 R = is64 -> w_file_header R (w_start R) h = Ok w -> wok w.
Proof.
  intros Hh Ei E. unfold w_file_header in E. mb E. destruct (_ && _); [discriminate|]. mb E. match type of E with Ok ?x = _ => assert (w = x) as -> by congruence end.
  refine (wok_put (w_start R) _ _ _); [split; constructor|]. eapply ok_header; [|eassumption]. rewrite Ei. exact Hh.
Qed.
Lemma wok_comdat R p c s s' : wok s -> ew_comdat_data R p c s = Ok s' -> wok s'.
Proof.
  intros Hs Es. unfold ew_comdat_data in Es. mb Es. unfold w_comdat_header in E. mb E. match type of E with Ok ?x = _ => assert (Hw : wok x) by (apply wok_put; [eapply wok_align; eassumption|apply bytes_ok_write_u]) end.
  assert (Hw' : wok a) by congruence. revert Es. apply (CoffI_proofs.fold_inv _ wok); [|exact Hw']. intros i s1 s2 _ Hs1 Es1. mb Es1. match type of Es1 with Ok ?x = _ => assert (s2 = x) as -> by congruence end. apply wok_put; [exact Hs1|apply bytes_ok_write_u].
Qed.
Lemma wok_section x w1 w2 : bytes_ok (se_data (fst x)) -> wok w1 -> ew_section_data x w1 = Ok w2 -> wok w2.
Proof. intros Hd Hs Es. unfold ew_section_data in Es. mb Es. mb Es. match type of Es with Ok ?x = _ => assert (w2 = x) as -> by congruence end. apply wok_put; [eapply wok_align; eassumption|exact Hd]. Qed.
Lemma wok_sym R p q s s' : wok s -> ew_symbol_data R p q s = Ok s' -> wok s'.
Proof. intros Hs Es. unfold ew_symbol_data in Es. mb Es. eapply wok_symbol; eassumption. Qed.
Lemma wok_relocs R p is_rela x w1 w2 : wok w1 -> ew_reloc_data R p is_rela x w1 = Ok w2 -> wok w2.
Proof.
  intros Hs Es. unfold ew_reloc_data in Es. destruct (has_relocs _); [|congruence]. mb Es. mb Es. unfold w_align_relocation in E. assert (Hw : wok a) by (eapply wok_align; eassumption).
  revert Es. apply (CoffI_proofs.fold_inv _ wok); [|exact Hw]. intros l s1 s2 _ Hs1 Es1. mb Es1. match type of Es1 with Ok ?x = _ => assert (s2 = x) as -> by congruence end. apply wok_put; [exact Hs1|apply ok_rel].
Qed.
Lemma wok_null_header R w w' : wok w -> w_null_section_header R w = Ok w' -> wok w'.
Proof.
  intros H E. unfold w_null_section_header in E. destruct (_ =? 0); [congruence|]. mb E. cbv zeta in E. mb E. match type of E with Ok ?x = _ => assert (w' = x) as -> by congruence end. pose proof (wok_at _ _ _ _ H E0) as Hw. exact (wok_put _ _ Hw (ok_shdr _ _ _)).
Qed.
Lemma wok_cheader R p x s s' : wok s -> ew_comdat_header R p x s = Ok s' -> wok s'.
Proof.
  intros Hs Es. unfold ew_comdat_header in Es. mb Es. mb Es. destruct a0 as [i w1]. assert (w1 = s') by congruence. subst. unfold w_comdat_section_header in E0. mb E0. eapply wok_section_header; eassumption.
Qed.
Lemma wok_sheader R is_rela x w1 w2 : wok w1 -> ew_section_header R is_rela x w1 = Ok w2 -> wok w2.
Proof.
  intros Hs Es. destruct x as [[s q] v]. unfold ew_section_header in Es. mb Es. destruct a as [ty fl]. mb Es. mb Es. match goal with G : w_section_header _ _ _ = Ok ?q |- _ => destruct q as [i w3]; assert (Hw : wok w3) by (eapply wok_section_header; eassumption) end.
  destruct (has_relocs s); [|congruence]. mb Es. mb Es. match goal with G : w_relocation_header _ _ _ _ _ _ _ _ = Ok ?q |- _ => destruct q as [j w4]; unfold w_relocation_header in G; mb G end. assert (w4 = w2) by congruence. subst. eapply wok_section_header; eassumption.
Qed.
Lemma write_bytes o R p is_rela is64 h F : tabs_ok R -> fhdr_ok is64 h -> r_is64 R = is64 -> Forall (fun s => bytes_ok (se_data s)) (o_sections o) -> ew_write o R p is_rela h = Ok F -> bytes_ok F.
Proof.
  intros T Hh Ei Sd E. unfold ew_write in E.
  mb E. assert (H0 : wok a) by (eapply wok_file_header; eassumption).
  mb E. assert (H1 : wok a0). { revert E1. apply (CoffI_proofs.fold_inv _ wok); [|exact H0]. intros c s s' _. apply wok_comdat. }
  mb E. assert (H2 : wok a1). { revert E2. apply (CoffI_proofs.fold_inv _ wok); [|exact H1]. intros [s q] w1 w2 Hin. apply wok_section. apply in_combine_l in Hin. rewrite Forall_forall in Sd. exact (Sd _ Hin). }
  mb E. assert (H3 : wok a2) by (eapply wok_null; eassumption).
  mb E. assert (H4 : wok a3). { revert E4. apply (CoffI_proofs.fold_inv _ wok); [|exact H3]. intros c s s' _. apply wok_sym. }
  mb E. assert (H5 : wok a4). { revert E5. apply (CoffI_proofs.fold_inv _ wok); [|exact H4]. intros c s s' _. apply wok_sym. }
  mb E. assert (H6 : wok a5) by (eapply wok_shndx; eassumption). mb E. assert (H7 : wok a6) by (eapply wok_strings; eassumption).
  mb E. assert (H8 : wok a7). { revert E8. apply (CoffI_proofs.fold_inv _ wok); [|exact H7]. intros c s s' _. apply wok_relocs. }
  mb E. assert (H9 : wok a8) by (eapply wok_strings; eassumption).
  mb E. assert (H10 : wok a9) by (eapply wok_null_header; eassumption).
  mb E. assert (H11 : wok a10). { revert E11. apply (CoffI_proofs.fold_inv _ wok); [|exact H10]. intros c s s' _. apply wok_cheader. }
  mb E. assert (H12 : wok a11). { revert E12. apply (CoffI_proofs.fold_inv _ wok); [|exact H11]. intros c s s' _. apply wok_sheader. }
  mb E. assert (H13 : wok a12) by (eapply wok_slot; eassumption). mb E. assert (H14 : wok a13) by (eapply wok_slot; eassumption). mb E. assert (H15 : wok a14) by (eapply wok_slot; eassumption). mb E. assert (H16 : wok a15) by (eapply wok_slot; eassumption).
  mb E. assert (F = w_out a15) as -> by congruence. apply H16.
Qed.
