(** Lemmas about [elf_write]: the calls of the two phases match. *)
From Verif Require Import Base Core_spec Core_proofs Str_spec Str_proofs Buf_proofs Map_proofs Util_proofs File_spec File_proofs Hash_proofs Pod_proofs Elf_proofs ElfR_proofs MachW_proofs.
From Verif Require CoffW_proofs.
From Verif Require Import ElfW_spec ElfWR_proofs ElfWB_proofs ElfWC_proofs ElfWT_proofs ElfO_model ElfO_proofs ElfOB_proofs ElfOC_proofs ElfOD_proofs.
Notation strtab := Str_model.strtab (only parsing).

Definition hmatch (h : option slot) (w : wcmd) : Prop :=
  match h with None => exists s, w = WSectionHeader s | Some s => exists addr n, w = WSlotHeader s addr n end.
Lemma hmatch_calls R hs ws : Forall2 hmatch hs ws -> exists ds, zlen ds = zlen hs /\
  forall i h w d, zget hs i = Some h -> zget ws i = Some w -> zget ds i = Some d -> header_call (fun _ _ => True) R h w d.
Proof.
  induction 1 as [|h w hs ws H F (ds & L & IH)]; [exists []; split; [reflexivity|]; intros i h w d H; apply zget_In in H; destruct H|].
  assert (D : exists d, header_call (fun _ _ => True) R h w d).
  { destruct h as [s|]; cbn [hmatch] in H; [destruct H as (addr & n & ->); eexists; apply (hc_slot _ _ s addr n 0); [unfold u32_ok; lia|exact I]|destruct H as (s & ->); eexists; apply hc_any]. }
  destruct D as (d & D). exists (d :: ds). split; [rewrite !zlen_cons, L; reflexivity|]. intros i h0 w0 d0 H1 H2 H3. apply zget_Some_lt in H1 as B.
  destruct (Z.eq_dec i 0) as [->|Ni]; [rewrite zget_0 in H1; rewrite zget_0 in H2; rewrite zget_0 in H3; assert (h0 = h) by congruence; assert (w0 = w) by congruence; assert (d0 = d) by congruence; subst; exact D|].
  rewrite zget_S in H1 by lia. rewrite zget_S in H2 by lia. rewrite zget_S in H3 by lia. exact (IH _ _ _ _ H1 H2 H3).
Qed.
Lemma hmatch_none {X Y} (f : X -> wcmd) (l : list X) (m : list Y) : (forall x, exists s, f x = WSectionHeader s) -> zlen l = zlen m -> Forall2 hmatch (map (fun _ => None) m) (map f l).
Proof.
  intro H. revert m. induction l as [|x l IH]; intros [|y m] L; [apply Forall2_nil|unfold zlen in L; cbn [length] in L; lia|unfold zlen in L; cbn [length] in L; lia|].
  cbn [map]. constructor; [apply H|]. apply IH. rewrite !zlen_cons in L. lia.
Qed.
Lemma headers_app2 a b : headers (a ++ b) = headers a ++ headers b.
Proof. apply flat_map_app. Qed.
Lemma headers_zero l : Forall (fun c => match c with RSection | RIndex _ => False | _ => True end) l -> headers l = [].
Proof. induction 1 as [|c l H _ IH]; [reflexivity|]. unfold headers in *. cbn [flat_map]. rewrite IH. destruct c; try contradiction; reflexivity. Qed.
Lemma headers_flat {X} (f : X -> list rcmd) l : headers (flat_map f l) = flat_map (fun x => headers (f x)) l.
Proof. induction l as [|x l IH]; [reflexivity|]. cbn [flat_map]. rewrite headers_app2, IH. reflexivity. Qed.

Section Match.
Context (o : obj) (is_rela is64 : bool) (p : eplan) (R : rst) (nd : bool) (P1 : phase1 o is_rela is64 p R nd).
Context (Few : zlen (o_comdats o) + zlen (o_sections o) + zlen (o_symbols o) < 2 ^ 29).
Context (Sok : Forall (fun s => bytes_ok (se_name s) /\ good_align (se_align s)) (o_sections o)).
Context (Yok : Forall (fun y => bytes_ok (sy_name y)) (o_symbols o)).
Notation st := (steps o is_rela p R nd).
Notation cs := (RFileHeader :: map fst st).
Notation c1 := (map fst (steps1 o p)). Notation c2 := (map fst (steps2 o is_rela)). Notation c3 := (map fst (steps3 o p)). Notation c4 := (map fst (steps4 o p R)).
Notation c5 := (map fst (steps5 nd)). Notation c6 := (map fst (steps6 o is_rela p)). Notation c7 := (map fst (steps7 o is_rela p R)).

Lemma len_comdats : zlen (pl_comdats p) = zlen (o_comdats o). Proof. exact (map_m_zlen _ _ _ _ _ (p1_comdats _ _ _ _ _ _ P1)). Qed.
Lemma len_secs : zlen (pl_secs p) = zlen (o_sections o). Proof. exact (map_m_zlen _ _ _ _ _ (p1_secs _ _ _ _ _ _ P1)). Qed.
Lemma len_relocs : zlen (pl_relocs p) = zlen (o_sections o). Proof. exact (map_m_zlen _ _ _ _ _ (p1_relocs _ _ _ _ _ _ P1)). Qed.
Lemma len_names : zlen (pl_names p) = zlen (o_symbols o). Proof. exact (map_m_zlen _ _ _ _ _ (p1_names _ _ _ _ _ _ P1)). Qed.

Lemma writes_eq h : [WFileHeader h] ++ flat_map snd st = all_writes o R p is_rela h.
Proof.
  unfold all_writes, steps. rewrite !flat_map_app. f_equal. unfold steps1, steps2, steps3, steps4, steps5, steps6, steps7.
  rewrite (flat_snd (comdat_steps (pl_secs p)) (comdat_wr (pl_secs p))) by (intro c; unfold comdat_steps; cbn [flat_map snd app]; apply app_nil_r). f_equal.
  rewrite (flat_snd (section_steps is_rela) section_wr) by (intro s; unfold section_steps; rewrite flat_map_app; cbn [flat_map snd app]; destruct (has_relocs s); reflexivity). f_equal.
  cbn [flat_map snd app]. rewrite flat_map_app.
  assert (flat_map snd (map (symbol_step (pl_secs p)) (locals o ++ globals o)) = []) as ->. { clear. induction (locals o ++ globals o) as [|x l IH]; [reflexivity|]. cbn [map flat_map]. rewrite IH. reflexivity. }
  rewrite (flat_snd name_steps (fun _ => [])) by (intro y; unfold name_steps; destruct (named_sym y); reflexivity).
  assert (flat_map (fun _ : osym => @nil wcmd) (o_symbols o) = []) as ->. { clear. induction (o_symbols o) as [|x l IH]; [reflexivity|]. cbn [flat_map]. exact IH. }
  cbn [app]. unfold symtab_writes. rewrite app_nil_r. cbn [app]. f_equal. f_equal.
  destruct nd; cbn [app flat_map snd]; f_equal; f_equal; (rewrite (flat_snd (reloc_steps p is_rela) (fun s => if has_relocs s then reloc_wr p is_rela s else [])) by (intro s; unfold reloc_steps; destruct (has_relocs s); [apply app_nil_r|reflexivity])); f_equal; f_equal; f_equal; apply app_nil_r.
Qed.
(** * The section headers *)
Lemma heads1 : headers c1 = map (fun _ => None) (o_comdats o).
Proof. rewrite cmds1, headers_flat. clear; induction (o_comdats o) as [|c l IH]; [reflexivity|]. cbn [flat_map map]. rewrite IH. reflexivity. Qed.
Definition sec_heads (s : osec) : list (option slot) := None :: if has_relocs s then [None] else [].
Lemma heads2 : headers c2 = flat_map sec_heads (o_sections o).
Proof. rewrite cmds2, headers_flat. apply flat_map_ext. intro s. unfold section_cmds, sec_heads. rewrite headers_app2. destruct (has_relocs s); reflexivity. Qed.
Lemma heads3 : headers c3 = [].
Proof.
  apply headers_zero. eapply Forall_impl; [|apply symbolic3]. intros c H. destruct c; cbn in H; try contradiction; exact I.
Qed.
Lemma heads6 : headers c6 = [].
Proof. rewrite cmds6. apply headers_zero. apply Forall_flat_map, Forall_forall. intros s _. unfold reloc_cmds. destruct (has_relocs s); repeat constructor. Qed.
Lemma heads_before : headers (RFileHeader :: c1 ++ c2 ++ c3 ++ c4 ++ c5 ++ c6 ++ [RIndex SShstrtab; RStrings SShstrtab]) =
  map (fun _ => None) (o_comdats o) ++ flat_map sec_heads (o_sections o) ++ [Some SSymtab] ++ (if nd then [Some SShndx] else []) ++ [Some SStrtab; Some SShstrtab].
Proof.
  assert (E4 : headers c4 = [Some SSymtab]) by reflexivity. assert (E5 : headers c5 = (if nd then [Some SShndx] else []) ++ [Some SStrtab]) by (unfold steps5; destruct nd; reflexivity).
  change (RFileHeader :: ?l) with ([RFileHeader] ++ l). rewrite !headers_app2, heads1, heads2, heads3, heads6, E4, E5. rewrite <- !app_assoc. reflexivity.
Qed.
Lemma heads_all : headers cs = map (fun _ => None) (o_comdats o) ++ flat_map sec_heads (o_sections o) ++ [Some SSymtab] ++ (if nd then [Some SShndx] else []) ++ [Some SStrtab; Some SShstrtab].
Proof.
  rewrite <- heads_before. unfold steps. rewrite !map_app. change (RFileHeader :: ?l) with ([RFileHeader] ++ l). rewrite !headers_app2. reflexivity.
Qed.
Notation Ord := (ordered o is_rela is64 p R nd P1 Few Sok Yok).
Lemma final_inv : inv cs R.
Proof. destruct (run_all _ _ _ _ _ _ P1) as (vs & Run). exact (final _ _ _ _ _ Ord Run). Qed.
Lemma shndx_id : match r_id R SShndx with Some _ => nd = true | None => nd = false end.
Proof.
  pose proof final_inv as I. pose proof (i_hdr _ _ I) as H1. pose proof (i_idx _ _ I SShndx) as H2. rewrite heads_all in H1, H2.
  destruct (r_id R SShndx) as [id|] eqn:E.
  - destruct H2 as (H2 & _); [discriminate|]. destruct nd; [reflexivity|]. exfalso. cbn [app] in H2. apply in_app_iff in H2. destruct H2 as [H2|H2]; [apply in_map_iff in H2; destruct H2 as (? & ? & _); discriminate|].
    apply in_app_iff in H2. destruct H2 as [H2|H2]; [apply in_flat_map in H2; destruct H2 as (s & _ & H2); unfold sec_heads in H2; destruct (has_relocs s); cbn in H2; intuition congruence|].
    cbn in H2. intuition congruence.
  - destruct nd; [|reflexivity]. exfalso. assert (In (Some SShndx) (map (fun _ => None) (o_comdats o) ++ flat_map sec_heads (o_sections o) ++ [Some SSymtab] ++ [Some SShndx] ++ [Some SStrtab; Some SShstrtab])) as Q by (rewrite !in_app_iff; cbn; tauto).
    apply In_zget in Q. destruct Q as (i & Q). apply (H1 _ _) in Q. destruct Q as (Q & _). congruence.
Qed.
Lemma heads_calls : Forall2 hmatch (headers cs) (hdr_calls o R p is_rela).
Proof.
  rewrite heads_all. unfold hdr_calls. apply Forall2_app; [apply hmatch_none; [intro x; eexists; reflexivity|apply zlen_combine'; exact len_comdats]|].
  apply Forall2_app.
  - pose proof len_secs as L1. pose proof len_relocs as L2. generalize dependent (pl_relocs p). generalize dependent (pl_secs p). clear. induction (o_sections o) as [|s l IH]; intros secs L1 offs L2.
    + destruct secs; [|rewrite zlen_cons in L1; pose proof (zlen_nonneg secs); change (zlen (@nil osec)) with 0 in L1; lia]. constructor.
    + destruct secs as [|q secs]; [rewrite zlen_cons in L1; pose proof (zlen_nonneg l); change (zlen (@nil esec)) with 0 in L1; lia|]. destruct offs as [|v offs]; [rewrite zlen_cons in L2; pose proof (zlen_nonneg l); change (zlen (@nil Z)) with 0 in L2; lia|].
      rewrite !zlen_cons in L1. rewrite !zlen_cons in L2. cbn [combine flat_map]. rewrite map_app. apply Forall2_app; [|apply IH; lia].
      unfold sec_heads, section_hdrs. destruct (has_relocs s); cbn [map]; repeat constructor; eexists; reflexivity.
  - cbn [app]. constructor; [exists 0, (pl_local p); reflexivity|]. pose proof shndx_id as Q. destruct (r_id R SShndx) as [id|]; rewrite Q; cbn [app]; repeat (constructor; [exists 0, 0; reflexivity|]); constructor.
Qed.
(** * The number of symbols is not 0 *)
Lemma need_nd : r_off R SShndx <> 0 -> nd = true.
Proof.
  intro H. destruct (run_all _ _ _ _ _ _ P1) as (vs & Run). pose proof (shndx_need _ _ _ _ _ Ord Run H) as N.
  destruct P1 as [r0 r1 r2 r3 r4 r5 r6 r7 r8 r9 ls gs mid en A0 A1 A2 A3 A4 A5 A6 A7 A8 A9 And A10 A11]. clear P1.
  rewrite run_app in A9. mb A9. destruct a as [va ra]. cbn [bind] in A9. mb A9. destruct a as [vb rb]. assert (rb = r7) by congruence. subst rb.
  assert (ztake 2 mid = va) as Em. { assert (mid = va ++ vb) by congruence. subst mid. apply run_len in E. change (zlen [RIndex SSymtab; RSymtab SSymtab]) with 2 in E. apply ztake_app_eq. lia. }
  rewrite <- (And ra) by (rewrite Em; reflexivity). symmetry.
  assert (K1 : r_need r7 SShndx = r_need ra SShndx).
  { refine (run_keep (fun r => r_need r SShndx) (fun c => c <> RRequire SShndx /\ symbol_of c <> Some SSymtab) _ _ _ _ _ _ E0); [intros r c v r' A (Q1 & Q2); apply (frame_need _ _ _ _ A Q1 Q2)|].
    destruct nd; repeat (constructor; [split; discriminate|]); constructor. }
  assert (K2 : r_need r8 SShndx = r_need r7 SShndx).
  { destruct (map_m_run _ (reloc_cmds is_rela) _ (reloc_run is_rela) _ _ _ A10) as (vs' & Q).
    refine (run_keep (fun r => r_need r SShndx) (fun c => c <> RRequire SShndx /\ symbol_of c <> Some SSymtab) _ _ _ _ _ _ Q); [intros r c v r' A (Q1 & Q2); apply (frame_need _ _ _ _ A Q1 Q2)|].
    apply Forall_flat_map, Forall_forall. intros s _. unfold reloc_cmds. destruct (has_relocs s); repeat (constructor; [split; discriminate|]); constructor. }
  assert (K3 : r_need R SShndx = r_need r8 SShndx).
  { refine (run_keep (fun r => r_need r SShndx) (fun c => c <> RRequire SShndx /\ symbol_of c <> Some SSymtab) _ _ _ _ _ _ A11); [intros r c v r' A (Q1 & Q2); apply (frame_need _ _ _ _ A Q1 Q2)|].
    repeat (constructor; [split; discriminate|]); constructor. }
  congruence.
Qed.
Lemma named_in s : named s = true -> r_off R s <> 0 -> In (RIndex s) cs.
Proof.
  intros Hs H. destruct (In_dec (fun a b : part => ltac:(decide equality; apply slot_eq_dec)) (PTable s) (parts_of cs)) as [D|D]; [|exfalso; apply H; exact (i_off _ _ final_inv _ D)].
  rewrite (parts_all o is_rela is64 p R nd P1) in D. rewrite cs_eq. rewrite !in_app_iff.
  destruct D as [D|[D|[D|[D|[D|[]]]]]]; try discriminate; injection D as <-; try discriminate.
  - right. left. left. left. reflexivity.
  - right. left. right. rewrite (need_nd H). left. reflexivity.
Qed.
End Match.
