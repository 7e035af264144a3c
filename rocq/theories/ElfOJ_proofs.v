(** Lemmas about [elf_write]: the section headers of the file. *)
From Verif Require Import Base Core_spec Core_proofs Str_spec Str_proofs Buf_proofs Map_proofs Util_proofs File_spec File_proofs Hash_proofs Pod_proofs Elf_proofs ElfR_proofs MachW_proofs.
From Verif Require CoffW_proofs.
From Verif Require Import ElfW_spec ElfWR_proofs ElfWB_proofs ElfWC_proofs ElfWT_proofs ElfO_model ElfO_proofs ElfOB_proofs ElfOC_proofs ElfOD_proofs ElfOE_proofs ElfOF_proofs ElfOG_proofs ElfOH_proofs ElfOI_proofs ElfO_spec.
Notation strtab := Str_model.strtab (only parsing).

Lemma flat_at {A B} (f : A -> list B) l i x k : zget l i = Some x -> 0 <= k < zlen (f x) -> zget (flat_map f l) (zlen (flat_map f (ztake i l)) + k) = zget (f x) k.
Proof.
  intros H K. apply zget_Some_lt in H as Bi. rewrite (flat_split f _ _ _ H). pose proof (zlen_nonneg (flat_map f (ztake i l))). rewrite zget_app2 by lia.
  replace (zlen (flat_map f (ztake i l)) + k - zlen (flat_map f (ztake i l))) with k by lia. rewrite zget_app1 by lia. reflexivity.
Qed.
Lemma flat_len {A B} (f : A -> list B) l : zlen (flat_map f l) = fold_right (fun x n => zlen (f x) + n) 0 l.
Proof. induction l as [|x l IH]; [reflexivity|]. cbn [flat_map fold_right]. rewrite zlen_app, IH. reflexivity. Qed.
Lemma count_cons {A} (f : A -> bool) x l : count f (x :: l) = (if f x then 1 else 0) + count f l.
Proof. unfold count. cbn [filter]. destruct (f x); [rewrite zlen_cons|]; lia. Qed.
Lemma has_relocs_eq s : has_relocs s = relocated s.
Proof. unfold has_relocs, relocated. destruct (se_relocs s) as [|x l]; [reflexivity|]. rewrite zlen_cons. pose proof (zlen_nonneg l). symmetry. apply Z.ltb_lt. lia. Qed.
Lemma heads_count l : zlen (flat_map sec_heads l) = zlen l + count relocated l.
Proof.
  induction l as [|s l IH]; [reflexivity|]. cbn [flat_map]. rewrite zlen_app, zlen_cons, count_cons, IH. unfold sec_heads. rewrite has_relocs_eq. destruct (relocated s); rewrite !zlen_cons; change (zlen (@nil (option slot))) with 0; lia.
Qed.
Lemma sec_pos_eq o i : 0 <= i <= zlen (o_sections o) -> sec_pos o i = section_no o i.
Proof. intro H. unfold sec_pos, section_no. rewrite heads_count, zlen_ztake by lia. lia. Qed.
Lemma filter_snd {A B} (f : B -> bool) (ks : list A) l : length ks = length l -> map snd (filter (fun p => f (snd p)) (combine ks l)) = filter f l.
Proof. revert ks. induction l as [|z l IH]; intros [|k ks] E; cbn in E; try discriminate; [reflexivity|]. cbn [combine filter snd]. destruct (f z); cbn [map snd]; rewrite IH by lia; reflexivity. Qed.
Lemma sym_pos_eq o k : sym_pos o k = symbol_no o k.
Proof.
  unfold sym_pos, symbol_no, count. destruct (zget (o_symbols o) k) as [y|]; [|reflexivity]. change oy_local with local_symbol. destruct (local_symbol y); [reflexivity|]. do 2 f_equal.
  unfold locals. change oy_local with local_symbol. unfold zlen. f_equal. rewrite <- (map_length snd). f_equal. unfold enumerate.
  apply filter_snd. unfold seqZ. rewrite map_length, seq_length. reflexivity.
Qed.

Section Heads.
Context (o : obj) (is_rela is64 : bool) (p : eplan) (R : rst) (nd : bool) (P1 : phase1 o is_rela is64 p R nd).
Context (Few : zlen (o_comdats o) + zlen (o_sections o) + zlen (o_symbols o) < 2 ^ 29).
Context (Sok : Forall (fun s => bytes_ok (se_name s) /\ good_align (se_align s)) (o_sections o)).
Context (Yok : Forall (fun y => bytes_ok (sy_name y)) (o_symbols o)).
Context (h : fhdr) (F : bytes) (Wr : ew_write o R p is_rela h = Ok F).
Notation st := (steps o is_rela p R nd).
Notation cs := (RFileHeader :: map fst st).
Notation Ord := (ordered o is_rela is64 p R nd P1 Few Sok Yok).
Notation X := (the_x o is64 p R h).
Notation r00 := (r_new is64 (o_endian o)).
Notation L := (locals o ++ globals o).
Notation HL := (hlist o is_rela p R nd).

Lemma consts : r_is64 R = is64 /\ r_end R = o_endian o.
Proof. destruct (run_all _ _ _ _ _ _ P1) as (vs & Run). exact (run_const _ _ _ _ _ Run). Qed.
Lemma shoff_on : r_shoff R <> 0.
Proof.
  assert (S7 : st = (steps1 o p ++ steps2 o is_rela ++ steps3 o p ++ steps4 o p R ++ steps5 nd ++ steps6 o is_rela p ++ [(RIndex SShstrtab, []); (RStrings SShstrtab, [WStrings SShstrtab])]) ++ (RSectionHeaders, WNullSectionHeader :: hdr_calls o R p is_rela) :: []).
  { unfold steps, steps7. rewrite <- !app_assoc. reflexivity. }
  destruct (step_in o is_rela is64 p R nd P1 Few Sok Yok h F Wr _ _ _ _ S7) as (va & ra & v & r1 & H1 & H2 & Hh & _).
  rewrite (here_sh _ _ _ _ _ _ _ _ Hh eq_refl). pose proof (h_after _ _ _ _ _ _ _ _ Hh) as A. pose proof (h_inv _ _ _ _ _ _ _ _ Hh) as I. pose proof (i_len _ _ I) as Ln. cbn [after] in A.
  destruct A as (A0 & A). pose proof (i_secs _ _ I) as Is. 
  assert (Hn : headers (RFileHeader :: map fst (steps1 o p ++ steps2 o is_rela ++ steps3 o p ++ steps4 o p R ++ steps5 nd ++ steps6 o is_rela p ++ [(RIndex SShstrtab, []); (RStrings SShstrtab, [WStrings SShstrtab])])) <> []).
  { rewrite !map_app. change (RFileHeader :: ?l) with ([RFileHeader] ++ l). rewrite !headers_app2. cbn [map fst headers flat_map app]. intro Q. apply (f_equal (@length _)) in Q. rewrite !app_length in Q. cbn in Q. lia. }
  destruct A as [(Z0 & _)|A].
  - exfalso. destruct Is as ([(_ & Is)|Is] & _); [contradiction|]. match type of Is with context [zlen ?l] => pose proof (zlen_nonneg l) end. lia.
  - destruct A as (_ & A & ->). proj. pose proof (addr_good (r_is64 ra)). destruct Is as ([(_ & Is)|Is] & Is'); [contradiction|]. assert (0 <= r_secs ra * shdr_size (r_is64 ra)) by (match type of Is with context [zlen ?l] => pose proof (zlen_nonneg l) end; destruct (r_is64 ra); cbn [shdr_size]; nia).
    apply reserved_ge in A; [lia|assumption|lia|lia].
Qed.

(** the section headers in the file *)
Lemma hcall_forall2 {A} (f : A -> shdr) l ss : Forall2 (header_written R) (map (fun x => WSectionHeader (f x)) l) ss -> ss = map f l.
Proof. revert ss. induction l as [|x l IH]; intros ss H; inversion H; subst; [reflexivity|]. cbn [map]. f_equal; [assumption|]. apply IH. assumption. Qed.
Lemma slot_cons s a n ws ss : Forall2 (header_written R) (WSlotHeader s a n :: ws) ss -> exists nm ss', (u32_ok nm /\ name_at R s nm) /\ ss = slot_header R s nm a n :: ss' /\ Forall2 (header_written R) ws ss'.
Proof. intro H. inversion H as [|? y ? ss' Hw Hs]; subst. destruct Hw as (nm & U & N & ->). exists nm, ss'. split; [split; assumption|]. split; [reflexivity|exact Hs]. Qed.
Lemma tables_in : fhdr_ok is64 h -> exists n1 n2 n3 n4, slot_named R SSymtab n1 /\ (nd = true -> slot_named R SShndx n2) /\ slot_named R SStrtab n3 /\ slot_named R SShstrtab n4 /\
  has_header is64 (o_endian o) F h (w_layout R) /\ has_tables is64 (o_endian o) F (w_layout R) [] (HL n1 n2 n3 n4) /\ Elf_spec.layout_ok is64 (w_layout R) /\ r_secs R = 1 + zlen (HL n1 n2 n3 n4) /\
  zlen F = r_len R /\ 0 < r_len R < 2 ^ 64 /\ (is64 = false -> r_len R < 2 ^ 32).
Proof.
  intro Hh. destruct (run_all _ _ _ _ _ _ P1) as (vs & Run). destruct (written o is_rela is64 p R nd P1 Few Sok Yok h F Wr vs Run) as (ds & B & Ly & Lw & H32).
  apply bw_blocks in B. cbn [map fst flat_map snd app] in B. pose proof (fun _ : r_secs R <> 0 => shoff_on) as Sec.
  destruct (tables_good _ _ _ _ _ _ _ _ _ _ Ord Run Sec B Ly) as (H1 & ss & H2 & H3). pose proof (layout_good _ _ _ _ _ Ord Run Sec _ _ _ _ _ H32 B Ly Lw) as Lg.
  rewrite (hcalls o is_rela is64 p R nd P1 h) in H3. pose proof (i_len _ _ (final_inv o is_rela is64 p R nd P1 Few Sok Yok)) as Rl.
  assert (Sg : segment_calls (flat_map snd st) = []).
  { pose proof (writes_eq o is_rela is64 p R nd P1 h) as Ew. assert (G : forall ws, Forall (fun w => match w with WProgramHeader _ => False | _ => True end) ws -> segment_calls ws = []).
    { intros ws Q. induction Q as [|w ws Q _ IH]; [reflexivity|]. unfold segment_calls in *. cbn [flat_map]. rewrite IH. destruct w; try reflexivity. destruct Q. }
    apply G. unfold all_writes in Ew. cbn [app] in Ew. injection Ew as Ew. rewrite Ew. clear. unfold hdr_calls.
    assert (M : forall A (f : A -> wcmd) l, (forall x, match f x with WProgramHeader _ => False | _ => True end) -> Forall (fun w => match w with WProgramHeader _ => False | _ => True end) (map f l)).
    { intros A f l Q. apply Forall_forall. intros w Hw. apply in_map_iff in Hw. destruct Hw as (x & <- & _). apply Q. }
    apply Forall_app. split; [apply Forall_flat_map, Forall_forall; intros c _; unfold comdat_wr; constructor; [exact I|apply M; intro; exact I]|].
    apply Forall_app. split; [apply Forall_flat_map, Forall_forall; intros c _; unfold section_wr; repeat (constructor; [exact I|]); constructor|].
    constructor; [exact I|]. apply Forall_app. split; [apply M; intro; exact I|]. constructor; [exact I|]. constructor; [exact I|].
    apply Forall_app. split; [apply Forall_flat_map, Forall_forall; intros c _; destruct (has_relocs c); [|constructor]; unfold reloc_wr; constructor; [exact I|apply M; intro; exact I]|].
    constructor; [exact I|]. constructor; [exact I|]. apply Forall_app. split; [apply M; intro; exact I|]. apply Forall_app. split; [apply M; intro; exact I|]. constructor; [exact I|].
    apply Forall_app. split; [destruct (r_id R SShndx); repeat (constructor; [exact I|]); constructor|]. repeat (constructor; [exact I|]); constructor. }
  rewrite Sg in H2. clear Sg.
  unfold hdr_calls in H3. apply Forall2_app_inv_l in H3. destruct H3 as (s1 & s' & A1 & A' & ->). apply Forall2_app_inv_l in A'. destruct A' as (s2 & s'' & A2 & A'' & ->).
  apply (hcall_forall2 (comdat_hdr R p)) in A1. apply (hcall_forall2 (fun x => x)) in A2. rewrite map_id in A2. subst s1 s2.
  pose proof (shndx_id o is_rela is64 p R nd P1 Few Sok Yok) as Id.
  assert (T : exists n1 n2 n3 n4, slot_named R SSymtab n1 /\ (nd = true -> slot_named R SShndx n2) /\ slot_named R SStrtab n3 /\ slot_named R SShstrtab n4 /\
    s'' = [slot_header R SSymtab n1 0 (pl_local p)] ++ (if nd then [slot_header R SShndx n2 0 0] else []) ++ [slot_header R SStrtab n3 0 0; slot_header R SShstrtab n4 0 0]).
  { destruct (r_id R SShndx) as [id|]; rewrite Id; cbn [app] in A''.
    - apply slot_cons in A''. destruct A'' as (n1 & t1 & N1 & -> & A''). apply slot_cons in A''. destruct A'' as (n2 & t2 & N2 & -> & A''). apply slot_cons in A''. destruct A'' as (n3 & t3 & N3 & -> & A''). apply slot_cons in A''. destruct A'' as (n4 & t4 & N4 & -> & A'').
      inversion A''; subst. exists n1, n2, n3, n4. split; [exact N1|]. split; [intros _; exact N2|]. split; [exact N3|]. split; [exact N4|reflexivity].
    - apply slot_cons in A''. destruct A'' as (n1 & t1 & N1 & -> & A''). apply slot_cons in A''. destruct A'' as (n3 & t3 & N3 & -> & A''). apply slot_cons in A''. destruct A'' as (n4 & t4 & N4 & -> & A'').
      inversion A''; subst. exists n1, 0, n3, n4. split; [exact N1|]. split; [intro; congruence|]. split; [exact N3|]. split; [exact N4|reflexivity]. }
  destruct T as (n1 & n2 & n3 & n4 & T1 & T2 & T3 & T4 & ->). exists n1, n2, n3, n4. split; [exact T1|]. split; [exact T2|]. split; [exact T3|]. split; [exact T4|].
  split; [exact H1|]. split; [exact H2|]. split; [exact Lg|]. split; [|split; [exact Lw|split; [lia|exact H32]]].
  destruct H2 as (_ & _ & [(_ & Q)|(Q & _)]); [|exact Q]. apply (f_equal zlen) in Q. rewrite !zlen_app in Q. change (zlen (@nil shdr)) with 0 in Q. rewrite zlen_cons in Q.
  unfold hlist in Q.
  repeat match type of Q with context [zlen ?l] => lazymatch goal with H : 0 <= zlen l |- _ => fail | _ => pose proof (zlen_nonneg l) end end. lia.
Qed.
End Heads.
