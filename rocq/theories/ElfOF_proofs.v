(** Lemmas about [elf_write]: the file has what the calls write. *)
From Verif Require Import Base Core_spec Core_proofs Str_spec Str_proofs Buf_proofs Map_proofs Util_proofs File_spec File_proofs Hash_proofs Pod_proofs Elf_proofs ElfR_proofs MachW_proofs.
From Verif Require CoffW_proofs.
From Verif Require Import ElfW_spec ElfWR_proofs ElfWB_proofs ElfWC_proofs ElfWT_proofs ElfO_model ElfO_proofs ElfOB_proofs ElfOC_proofs ElfOD_proofs ElfOE_proofs.
Notation strtab := Str_model.strtab (only parsing).

(** steps that match whatever the reserve call returned *)
Definition free (R : rst) (x : across) (cw : rcmd * list wcmd) : Prop := forall a v, exists d, block (fun _ _ => True) R x a (fst cw) v (snd cw) d.
Lemma free_other R x c : part_of c = None -> match c with RRange _ _ | RUntil _ | RFileHeader | RRelocations _ _ | RComdat _ => False | _ => True end -> free R x (c, []).
Proof. intros H1 H2 a v. exists []. apply b_other; assumption. Qed.
Lemma free_strings R x s : free R x (RStrings s, [WStrings s]).
Proof. intros a v. destruct (Z.eq_dec v 0); eexists; [apply b_no_strings; assumption|apply b_strings; assumption]. Qed.
Lemma free_shndx R x : free R x (RShndx, [WSymtabShndx]).
Proof. intros a v. destruct (Z.eq_dec v 0); eexists; [apply b_no_shndx; assumption|apply b_shndx; assumption]. Qed.
Lemma free_section R x s : free R x (RRange (zlen (se_data s)) (se_align s), section_wr s).
Proof. intros a v. eexists. apply b_range. reflexivity. Qed.
Lemma free_comdat R x secs c : free R x (RComdat (zlen (oc_sections c)), comdat_wr secs c).
Proof. intros a v. eexists. unfold comdat_wr. cbn [fst snd]. rewrite <- (zlen_map (sidx secs) (oc_sections c)). apply b_comdat. Qed.
Lemma free_reloc R x p is_rela s : free R x (RRelocations (zlen (se_relocs s)) is_rela, reloc_wr p is_rela s).
Proof. intros a v. eexists. unfold reloc_wr. cbn [fst snd]. rewrite <- (zlen_map (reloc_of p) (se_relocs s)). apply b_relocations. Qed.

Section Written.
Context (o : obj) (is_rela is64 : bool) (p : eplan) (R : rst) (nd : bool) (P1 : phase1 o is_rela is64 p R nd).
Context (Few : zlen (o_comdats o) + zlen (o_sections o) + zlen (o_symbols o) < 2 ^ 29).
Context (Sok : Forall (fun s => bytes_ok (se_name s) /\ good_align (se_align s)) (o_sections o)).
Context (Yok : Forall (fun y => bytes_ok (sy_name y)) (o_symbols o)).
Context (h : fhdr) (F : bytes) (Wr : ew_write o R p is_rela h = Ok F).
Notation st := (steps o is_rela p R nd).
Notation cs := (RFileHeader :: map fst st).
Notation c1 := (map fst (steps1 o p)). Notation c2 := (map fst (steps2 o is_rela)). Notation c3 := (map fst (steps3 o p)). Notation c4 := (map fst (steps4 o p R)).
Notation c5 := (map fst (steps5 nd)). Notation c6 := (map fst (steps6 o is_rela p)). Notation c7 := (map fst (steps7 o is_rela p R)).
Notation Ord := (ordered o is_rela is64 p R nd P1 Few Sok Yok).
Definition wsyms : list wsym := map (sym_of R p) (locals o ++ globals o).
Definition the_x : across := {| x_mips64el := is64 && (match o_endian o with Little => true | Big => false end) && (fh_machine h =? 8);
  x_shndx := write_u (r_end R) 4 0 ++ concat (map (xindex_bytes R) wsyms) |}.

Lemma free_steps : Forall (fun cw => free R the_x cw \/ cw = (RSymtab SSymtab, symtab_writes o R p) \/ cw = (RSectionHeaders, WNullSectionHeader :: hdr_calls o R p is_rela)) st.
Proof.
  unfold steps. rewrite !Forall_app. repeat split.
  - apply Forall_flat_map, Forall_forall. intros c _. unfold comdat_steps. repeat (constructor; [left; first [apply free_comdat|apply free_other; [reflexivity|exact I]]|]). constructor.
  - apply Forall_flat_map, Forall_forall. intros s _. unfold section_steps. destruct (has_relocs s); cbn [app]; repeat (constructor; [left; first [apply free_section|apply free_other; [reflexivity|exact I]]|]); constructor.
  - constructor; [left; apply free_other; [reflexivity|exact I]|]. apply Forall_app. split.
    + apply Forall_map, Forall_forall. intros q _. left. apply free_other; [reflexivity|exact I].
    + apply Forall_flat_map, Forall_forall. intros y _. unfold name_steps. destruct (named_sym y); [|constructor]. constructor; [left; apply free_other; [reflexivity|exact I]|constructor].
  - constructor; [left; apply free_other; [reflexivity|exact I]|]. constructor; [right; left; reflexivity|constructor].
  - unfold steps5. apply Forall_app. split; [destruct nd; [|constructor]; constructor; [left; apply free_other; [reflexivity|exact I]|constructor]|].
    constructor; [left; apply free_shndx|]. constructor; [left; apply free_other; [reflexivity|exact I]|]. constructor; [left; apply free_strings|constructor].
  - apply Forall_flat_map, Forall_forall. intros s _. unfold reloc_steps. destruct (has_relocs s); [|constructor]. constructor; [left; apply free_reloc|constructor].
  - constructor; [left; apply free_other; [reflexivity|exact I]|]. constructor; [left; apply free_strings|]. constructor; [right; right; reflexivity|constructor].
Qed.
Lemma before_symtab a b : cs = a ++ RSymtab SSymtab :: b -> a = RFileHeader :: c1 ++ c2 ++ c3 ++ [RIndex SSymtab] /\ b = c5 ++ c6 ++ c7.
Proof.
  intro E. assert (Ec : cs = (RFileHeader :: c1 ++ c2 ++ c3 ++ [RIndex SSymtab]) ++ RSymtab SSymtab :: (c5 ++ c6 ++ c7)).
  { rewrite cs_eq. cbn [app map fst steps4]. rewrite <- !app_assoc. reflexivity. }
  rewrite Ec in E. symmetry in E. apply unique_split in E; [exact E| |].
  - intro Q. assert (Q' : In (RSymtab SSymtab) (RFileHeader :: c1 ++ c2 ++ c3) \/ In (RSymtab SSymtab) [RIndex SSymtab]).
    { destruct Q as [Q|Q]; [discriminate|]. rewrite !in_app_iff in Q. cbn [In]. rewrite !in_app_iff. cbn [In] in Q. tauto. }
    destruct Q' as [Q'|[Q'|[]]]; [|discriminate]. revert Q'. apply before; [intros []|intros []|discriminate].
  - rewrite !in_app_iff. intros [Q|[Q|Q]].
    + unfold steps5 in Q. destruct nd; cbn in Q; intuition discriminate.
    + revert Q. apply in6. intros [].
    + cbn in Q. intuition discriminate.
Qed.
Lemma before_headers a b : cs = a ++ RSectionHeaders :: b -> a = RFileHeader :: c1 ++ c2 ++ c3 ++ c4 ++ c5 ++ c6 ++ [RIndex SShstrtab; RStrings SShstrtab] /\ b = [].
Proof.
  intro E. assert (Ec : cs = (RFileHeader :: c1 ++ c2 ++ c3 ++ c4 ++ c5 ++ c6 ++ [RIndex SShstrtab; RStrings SShstrtab]) ++ RSectionHeaders :: []).
  { rewrite cs_eq. unfold steps7. cbn [app map fst]. rewrite <- !app_assoc. reflexivity. }
  rewrite Ec in E. symmetry in E. apply unique_split in E; [exact E| |intros []].
  intro Q. assert (Q' : In RSectionHeaders (RFileHeader :: c1 ++ c2 ++ c3) \/ In RSectionHeaders c4 \/ In RSectionHeaders c5 \/ In RSectionHeaders c6 \/ In RSectionHeaders [RIndex SShstrtab; RStrings SShstrtab]).
  { destruct Q as [Q|Q]; [discriminate|]. rewrite !in_app_iff in Q. cbn [In]. rewrite !in_app_iff. cbn [In] in Q. tauto. }
  destruct Q' as [Q'|[Q'|[Q'|[Q'|Q']]]].
  - revert Q'. apply before; [intros []|intros []|discriminate].
  - cbn in Q'. intuition discriminate.
  - unfold steps5 in Q'. destruct nd; cbn in Q'; intuition discriminate.
  - revert Q'. apply in6. intros [].
  - cbn in Q'. intuition discriminate.
Qed.
Lemma wsyms_len : zlen wsyms = zlen (o_symbols o).
Proof. unfold wsyms. rewrite zlen_map, zlen_app. apply locals_len. Qed.
Lemma file_header_ok : exists d, enc_file_header (r_is64 R) (r_end R) h (w_layout R) = Ok d /\ (r_is64 R = false -> r_len R < 2 ^ 32).
Proof.
  unfold ew_write in Wr. pose proof Wr as W. mb W. unfold w_file_header in E. mb E. destruct (r_is64 R) eqn:Q; cbn [negb andb] in E.
  - mb E. exists a1. split; [first [exact E0|reflexivity]|discriminate].
  - destruct (Z.ltb_spec 4294967295 (r_len R)); [discriminate|]. mb E. exists a1. split; [first [exact E0|reflexivity]|]. intros _. lia.
Qed.
Theorem written vs : r_run (r_new is64 (o_endian o)) cs = Ok (vs, R) ->
  exists ds, blocks_w (name_at R) R the_x [] ((RFileHeader, [WFileHeader h]) :: st) vs ds /\ lays 0 vs ds F /\ zlen F = r_len R /\ (is64 = false -> r_len R < 2 ^ 32).
Proof.
  intro Run. destruct (run_const _ _ _ _ _ Run) as (K1 & K2). destruct file_header_ok as (dh & Eh & H32).
  destruct (phase2_inv _ _ _ _ _ _ (len_comdats _ _ _ _ _ _ P1) (len_secs _ _ _ _ _ _ P1) (len_relocs _ _ _ _ _ _ P1) Wr) as (_ & w & Ew & -> & Lf).
  assert (B : exists ds, blocks_w (fun _ _ => True) R the_x [] ((RFileHeader, [WFileHeader h]) :: st) vs ds).
  { pose proof Run as Q. cbn [r_run] in Q. mb Q. destruct a as [v0 r0]. mb Q. destruct a as [vs' R']. assert (vs = v0 :: vs') by congruence. assert (R' = R) by congruence. subst vs R'.
    destruct (blocks_of (fun _ _ => True) R the_x st [RFileHeader] r0 vs' R E0) as (ds & Hds).
    - intros s1 c w0 s2 va ra v r1 Es H1 H2. pose proof free_steps as Fs. rewrite Es in Fs. apply Forall_app in Fs. destruct Fs as (_ & Fs). apply Forall_inv in Fs.
      assert (Ec : cs = (RFileHeader :: map fst s1) ++ c :: map fst s2) by (rewrite Es, map_app; reflexivity).
      assert (R1 : r_run (r_new is64 (o_endian o)) (RFileHeader :: map fst s1) = Ok (v0 :: va, ra)) by (eapply run_two; [exact E|exact H1]).
      destruct (make_here _ _ _ _ _ Ord Run _ _ _ Ec ltac:(discriminate)) as (va' & v' & vb & ra' & r1' & Q1 & Q2 & _ & _ & Hh).
      assert (ra' = ra) by congruence. subst ra'. assert (v' = v) by congruence. subst v'. clear Q1 Q2.
      pose proof (h_inv _ _ _ _ _ _ _ _ Hh) as I. pose proof (h_after _ _ _ _ _ _ _ _ Hh) as A. pose proof (i_len _ _ I) as Ln.
      destruct Fs as [Fs|[Fs|Fs]]; [exact (Fs _ v)| |].
      + assert (c = RSymtab SSymtab) by congruence. assert (w0 = symtab_writes o R p) by congruence. subst c w0. clear Fs. destruct (before_symtab _ _ Ec) as (Ea & _).
        eexists. unfold symtab_writes. cbn [fst snd]. change ([RFileHeader] ++ map fst s1) with (RFileHeader :: map fst s1). apply b_symtab.
        * cbn [after] in A. destruct A as (_ & A).
          assert (N : 1 <= r_num ra SSymtab).
          { assert (El : RFileHeader :: c1 ++ c2 ++ c3 ++ [RIndex SSymtab] = (RFileHeader :: c1 ++ c2) ++ RNullSymbol SSymtab :: (map fst (tl (steps3 o p)) ++ [RIndex SSymtab])) by (cbn [app]; rewrite <- app_assoc; reflexivity).
            rewrite Ea, El in R1. apply run_split in R1. destruct R1 as (u1 & u2 & u3 & u4 & u5 & _ & U1 & U2 & _). apply exec_after in U1. cbn [after] in U1. destruct U1 as (_ & _ & U1).
            refine (run_num _ u4 u5 ra _ U2 _); [|rewrite U1; proj; rewrite upd_same; lia].
            pose proof (io_calls _ Ord) as C. rewrite Ec in C. apply Forall_app in C. destruct C as (C & _). rewrite Ea, El in C. apply Forall_app in C. destruct C as (_ & C). exact (Forall_inv_tail C). }
          destruct A as [(A & _)|(_ & A & _)]; [lia|]. pose proof (num_nonneg _ _ SSymtab I (or_introl eq_refl)) as N2.
          apply reserved_ge in A; [lia|apply addr_good|lia|]. destruct (r_is64 ra); cbn [sym_size]; lia.
        * fold wsyms. rewrite wsyms_len, Ea. change (RFileHeader :: c1 ++ c2 ++ c3 ++ [RIndex SSymtab]) with ([RFileHeader] ++ c1 ++ c2 ++ c3 ++ [RIndex SSymtab]). rewrite !symbols_app, symbols3, (symbols_zero SSymtab c1) by apply plain1. rewrite (symbols_zero SSymtab c2) by apply plain2. change (symbols SSymtab [RFileHeader]) with 0. change (symbols SSymtab [RIndex SSymtab]) with 0. lia.
        * intros _. reflexivity.
      + assert (c = RSectionHeaders) by congruence. assert (w0 = WNullSectionHeader :: hdr_calls o R p is_rela) by congruence. subst c w0. clear Fs. destruct (before_headers _ _ Ec) as (Ea & Eb).
        change ([RFileHeader] ++ map fst s1) with (RFileHeader :: map fst s1).
        assert (Hh' : headers (RFileHeader :: map fst s1) = headers cs) by (rewrite Ea, (heads_before _ _ _ _ _ _ P1), (heads_all _ _ _ _ _ _ P1); reflexivity).
        destruct (hmatch_calls R _ _ (heads_calls o is_rela is64 p R nd P1 Few Sok Yok)) as (hs & Lh & Hhs). pose proof (CoffW_proofs.Forall2_zlen _ _ _ (heads_calls o is_rela is64 p R nd P1 Few Sok Yok)) as Lc.
        eexists. apply (b_sections _ _ _ _ v (hdr_calls o R p is_rela) hs); rewrite ?Hh'; [|lia|exact Lh|exact Hhs].
        cbn [after] in A. destruct A as (_ & A). destruct (i_secs _ _ I) as (S1 & S2). rewrite Hh', (heads_all _ _ _ _ _ _ P1) in S1. pose proof (zlen_nonneg (headers cs)).
        assert (r_secs ra <> 0). { destruct S1 as [(_ & S1)|S1]; [|pose proof (zlen_nonneg (map (fun _ : ocomdat => @None slot) (o_comdats o) ++ flat_map sec_heads (o_sections o) ++ [Some SSymtab] ++ (if nd then [Some SShndx] else []) ++ [Some SStrtab; Some SShstrtab])); lia].
          exfalso. apply (f_equal zlen) in S1. rewrite !zlen_app in S1. change (zlen (@nil (option slot))) with 0 in S1. change (zlen [Some SSymtab]) with 1 in S1. pose proof (zlen_nonneg (map (fun _ : ocomdat => @None slot) (o_comdats o))). pose proof (zlen_nonneg (flat_map sec_heads (o_sections o))). pose proof (zlen_nonneg (if nd then [Some SShndx] else [])). pose proof (zlen_nonneg [Some SStrtab; Some SShstrtab]). lia. }
        destruct A as [(A & _)|(_ & A & _)]; [lia|]. apply reserved_ge in A; [lia|apply addr_good|lia|]. assert (0 <= r_secs ra) by (destruct S1 as [(S1 & _)|S1]; [lia|rewrite S1; match goal with |- context [zlen ?l] => pose proof (zlen_nonneg l) end; lia]). destruct (r_is64 ra); cbn [shdr_size]; lia.
    - exists (dh :: ds). constructor; [|exact Hds]. apply b_file_header; [unfold the_x; cbn [x_mips64el]; rewrite K1, K2; reflexivity|exact Eh|exact H32]. }
  destruct B as (ds0 & B).
  destruct (writer_okw is64 (o_endian o) [WFileHeader h] st vs R (fun _ _ => True) the_x ds0 Ord Run) as (w' & ds & W1 & W2 & W3 & W4); [|exact B|].
  { intros s Hs Ho. exact (named_in o is_rela is64 p R nd P1 Few Sok Yok s Hs Ho). }
  rewrite (writes_eq o is_rela is64 p R nd P1 h) in W1. assert (w' = w) by congruence. subst w'. exists ds. split; [exact W3|]. split; [exact W4|]. split; [lia|]. intro Q. apply H32. congruence.
Qed.
End Written.
