(** Lemmas about [elf_write]: the sections of the file. *)
From Verif Require Import Base Core_spec Core_proofs Str_spec Str_proofs Buf_proofs Map_proofs Util_proofs File_spec File_proofs Hash_proofs Pod_proofs Elf_proofs ElfR_proofs MachW_proofs.
From Verif Require CoffW_proofs.
From Verif Require Import ElfW_spec ElfWR_proofs ElfWB_proofs ElfWC_proofs ElfWT_proofs ElfO_model ElfO_proofs ElfOB_proofs ElfOC_proofs ElfOD_proofs ElfOE_proofs ElfOF_proofs ElfOG_proofs ElfOH_proofs ElfOI_proofs ElfO_spec ElfOJ_proofs.
Notation strtab := Str_model.strtab (only parsing).

Section Parts.
Context (o : obj) (is_rela is64 : bool) (p : eplan) (R : rst) (nd : bool) (P1 : phase1 o is_rela is64 p R nd).
Context (Few : zlen (o_comdats o) + zlen (o_sections o) + zlen (o_symbols o) < 2 ^ 29).
Context (Sok : Forall (fun s => bytes_ok (se_name s) /\ good_align (se_align s)) (o_sections o)).
Context (Yok : Forall (fun y => bytes_ok (sy_name y)) (o_symbols o)).
Context (h : fhdr) (F : bytes) (Wr : ew_write o R p is_rela h = Ok F).
Context (Fit : object_fits is64 is_rela o).
Notation st := (steps o is_rela p R nd).
Notation cs := (RFileHeader :: map fst st).
Notation X := (the_x o is64 p R h).
Notation L := (locals o ++ globals o).
Notation HL := (hlist o is_rela p R nd).
Context (Fw : forall v d, holds F v d -> word_ok is64 v /\ word_ok is64 (zlen d)) (HF : zlen F < 2 ^ 64) (Rs : r_secs R < 2 ^ 32).

Lemma p2 : phase2 o R p.
Proof. apply (phase2_inv o R p is_rela h F (len_comdats _ _ _ _ _ _ P1) (len_secs _ _ _ _ _ _ P1) (len_relocs _ _ _ _ _ _ P1) Wr). Qed.
(** symbols have numbers *)
Lemma psym_in k n : pl_symbol p k = Ok n -> exists y, zget (o_symbols o) k = Some y /\ n = symbol_no o k.
Proof.
  intro H. destruct (syms_at o is_rela is64 p R nd P1) as (_ & _ & M). pose proof (psym_ok _ _ _ H) as Hn. unfold pl_symbol in H. destruct (find _ (pl_syms p)) as [[k' m]|] eqn:Fd; [|discriminate].
  apply find_some in Fd. destruct Fd as (Fd & Q). cbn [fst] in Q. apply Z.eqb_eq in Q. subst k'. apply (in_map fst) in Fd. rewrite M in Fd. cbn [fst] in Fd. apply in_map_iff in Fd. destruct Fd as ((k' & y) & Q & Fd). cbn [fst] in Q. subst k'.
  assert (Hk : zget (o_symbols o) k = Some y). { apply in_enumerate. apply in_app_iff in Fd. destruct Fd as [Fd|Fd]; apply filter_In in Fd; apply Fd. }
  exists y. split; [exact Hk|]. rewrite Hn, (yidx_at o is_rela is64 p R nd P1 _ _ Hk). apply sym_pos_eq.
Qed.
Lemma count_le {A} (f : A -> bool) l : 0 <= count f l <= zlen l.
Proof. unfold count, zlen. pose proof (filter_length_le f l). lia. Qed.
Lemma count_split {A} (f : A -> bool) l : count f l + count (fun x => negb (f x)) l = zlen l.
Proof. induction l as [|x l IH]; [reflexivity|]. rewrite !count_cons, zlen_cons. destruct (f x); cbn [negb]; lia. Qed.
Lemma symbol_no_bound k y : zget (o_symbols o) k = Some y -> 1 <= symbol_no o k <= zlen (o_symbols o).
Proof.
  intro H. unfold symbol_no. rewrite H. apply zget_Some_lt in H as B. destruct (zget_split _ _ _ H) as (a & c & E & La). rewrite E. rewrite <- La. rewrite ztake_app_eq by reflexivity.
  pose proof (count_le local_symbol a). pose proof (count_le (fun y => negb (local_symbol y)) a). pose proof (count_split local_symbol a). pose proof (count_split local_symbol (a ++ y :: c)) as Sp.
  assert (Ap : forall f : osym -> bool, count f (a ++ y :: c) = count f a + (if f y then 1 else 0) + count f c) by (intro f; unfold count; rewrite filter_app, zlen_app; fold (count f (y :: c)); rewrite count_cons; unfold count; lia).
  rewrite !Ap in *. rewrite zlen_app, zlen_cons in Sp |- *. pose proof (count_le local_symbol c). pose proof (count_le (fun y => negb (local_symbol y)) c). destruct (local_symbol y); cbn [negb] in *; lia.
Qed.
(** section numbers *)
Lemma sec_at i s : zget (o_sections o) i = Some s -> exists q off, zget (pl_secs p) i = Some q /\ zget (pl_relocs p) i = Some off /\ sec_written o is_rela R F i s q.
Proof.
  intro H. apply zget_Some_lt in H as B. destruct (zget_lt_Some (pl_secs p) i ltac:(rewrite (len_secs _ _ _ _ _ _ P1); lia)) as (q & Hq). destruct (zget_lt_Some (pl_relocs p) i ltac:(rewrite (len_relocs _ _ _ _ _ _ P1); lia)) as (v & Hv).
  exists q, v. split; [exact Hq|]. split; [exact Hv|]. exact (section_at o is_rela is64 p R nd P1 Few Sok Yok h F Wr _ _ _ H Hq).
Qed.
Lemma sidx_no i : zget (pl_secs p) i <> None -> sidx (pl_secs p) i = section_no o i /\ 0 <= i < zlen (o_sections o).
Proof.
  intro H. unfold sidx. destruct (zget (pl_secs p) i) as [q|] eqn:E; [|congruence]. apply zget_Some_lt in E as B. rewrite (len_secs _ _ _ _ _ _ P1) in B. destruct (zget_lt_Some (o_sections o) i B) as (s & Hs).
  rewrite (sw_index _ _ _ _ _ _ _ (section_at o is_rela is64 p R nd P1 Few Sok Yok h F Wr _ _ _ Hs E)). split; [apply sec_pos_eq; lia|exact B].
Qed.
Lemma section_no_bound i : 0 <= i < zlen (o_sections o) -> 1 <= section_no o i < 2 ^ 31.
Proof. intro B. unfold section_no. pose proof (count_le relocated (ztake i (o_sections o))) as C. rewrite zlen_ztake in C by lia. pose proof (zlen_nonneg (o_comdats o)). pose proof (zlen_nonneg (o_symbols o)). lia. Qed.

(** * The sections *)
Definition gdata (c : ocomdat) : bytes := write_u (r_end R) 4 1 ++ concat (map (write_u (r_end R) 4) (map (sidx (pl_secs p)) (oc_sections c))).
Definition rdata (s : osec) : bytes := concat (map (enc_rel (r_is64 R) is_rela (r_end R) (x_mips64el X)) (map (reloc_of p) (se_relocs s))).
Definition secs_of (x : osec * esec * Z) : list section :=
  let '(s, q, off) := x in {| sc_hdr := section_hdr R s q; sc_name := se_name s; sc_data := se_data s |} ::
    if has_relocs s then [{| sc_hdr := reloc_hdr R is_rela s q off; sc_name := reloc_name is_rela s; sc_data := rdata s |}] else [].
Definition group_of (x : ocomdat * (Z * Z)) : section := {| sc_hdr := comdat_hdr R p x; sc_name := str ".group"; sc_data := gdata (fst x) |}.
Definition slot_sec (s : slot) (n a : Z) (d : bytes) : section := {| sc_hdr := slot_header R s n 0 a; sc_name := slot_name s; sc_data := d |}.
Definition secl (n1 n2 n3 n4 : Z) : list section :=
  map group_of (combine (o_comdats o) (pl_comdats p)) ++ flat_map secs_of (combine (combine (o_sections o) (pl_secs p)) (pl_relocs p)) ++
  [slot_sec SSymtab n1 (pl_local p) (symtab_data o p R)] ++ (if nd then [slot_sec SShndx n2 0 (concat (map (write_u (r_end R) 4) (xwords o p R)))] else []) ++
  [slot_sec SStrtab n3 0 (r_data R SStrtab); slot_sec SShstrtab n4 0 (r_data R SShstrtab)].
Lemma secl_hdrs n1 n2 n3 n4 : map sc_hdr (secl n1 n2 n3 n4) = HL n1 n2 n3 n4.
Proof.
  unfold secl, hlist. rewrite !map_app. f_equal; [rewrite map_map; reflexivity|]. f_equal.
  - induction (combine (combine (o_sections o) (pl_secs p)) (pl_relocs p)) as [|[[s q] v] l IH]; [reflexivity|]. cbn [flat_map]. rewrite map_app, IH. f_equal. unfold secs_of, section_hdrs. destruct (has_relocs s); reflexivity.
  - destruct nd; reflexivity.
Qed.
Definition good (x : section) : Prop := shdr_ok is64 (sc_hdr x) /\ string_at (r_data R SShstrtab) (sh_name (sc_hdr x)) (sc_name x) /\ content F (sc_hdr x) (sc_data x).
Lemma index_u32 s : In (Some s) (headers cs) -> slot_indexed s = true -> 1 <= r_index R s < 2 ^ 32.
Proof.
  intros H Hs. apply In_zget in H. destruct H as (i & H). pose proof (final_inv o is_rela is64 p R nd P1 Few Sok Yok) as I. destruct (i_hdr _ _ I _ _ H) as (_ & Q). rewrite (Q Hs). apply zget_Some_lt in H.
  destruct (i_secs _ _ I) as ([(_ & Q2)|Q2] & Q3); [rewrite Q2 in H; change (zlen (@nil (option slot))) with 0 in H; lia|lia].
Qed.
Lemma heads_has : In (Some SSymtab) (headers cs) /\ In (Some SStrtab) (headers cs) /\ In (Some SShstrtab) (headers cs) /\ (nd = true -> In (Some SShndx) (headers cs)).
Proof. rewrite (heads_all _ _ _ _ _ _ P1). rewrite !in_app_iff. cbn [In]. split; [tauto|]. split; [tauto|]. split; [tauto|]. intros ->. cbn [In]. tauto. Qed.
Lemma symtab_u32 : 1 <= r_index R SSymtab < 2 ^ 32.
Proof. apply index_u32; [apply heads_has|reflexivity]. Qed.
Lemma word_small v : 0 <= v < 2 ^ 32 -> word_ok is64 v.
Proof. intro H. unfold word_ok. destruct is64; lia. Qed.
Lemma combine_at {A B} (a : list A) : forall (b : list B) i x y, zget (combine a b) i = Some (x, y) -> zget a i = Some x /\ zget b i = Some y.
Proof.
  induction a as [|u a IH]; intros b i x y H; [apply zget_In in H; destruct H|]. destruct b as [|w b]; [apply zget_In in H; destruct H|]. cbn [combine] in H. apply zget_Some_lt in H as Bi.
  destruct (Z.eq_dec i 0) as [->|Ni]; [rewrite zget_0 in H; rewrite !zget_0; split; congruence|]. rewrite zget_S in H by lia. rewrite !zget_S by lia. apply IH. exact H.
Qed.
Lemma group_good c q i : zget (combine (o_comdats o) (pl_comdats p)) i = Some (c, q) -> good (group_of (c, q)).
Proof.
  intro H. destruct (combine_at _ _ _ _ _ H) as (Hc & Hq). destruct (group_at o is_rela is64 p R nd P1 Few Sok Yok h F Wr _ _ _ Hc Hq) as (Hd & _ & Hu & Hn). fold (gdata c) in Hd.
  pose proof p2 as Q. pose proof (Forall_zget _ _ _ _ (q_gsym _ _ _ Q) Hc) as Hs. cbn beta in Hs. destruct (psym_in _ _ Hs) as (y & Hy & Ey). pose proof (symbol_no_bound _ _ Hy) as By.
  assert (Lg : zlen (gdata c) = (zlen (oc_sections c) + 1) * 4). { unfold gdata. rewrite zlen_app, zlen_write_u, (zlen_concat_const 4) by apply (Forall_write_u (r_end R) 4). rewrite !zlen_map. lia. }
  destruct (Fw _ _ Hd) as (W1 & W2). pose proof symtab_u32. pose proof (zlen_nonneg (oc_sections c)). pose proof (zlen_nonneg (o_comdats o)). pose proof (zlen_nonneg (o_sections o)).
  split; [|split; [exact Hn|]].
  - unfold group_of, comdat_hdr, wr_group_header. cbn [sc_hdr fst snd]. unfold shdr_ok. cbn [sh_name sh_type sh_flags sh_addr sh_offset sh_size sh_link sh_info sh_addralign sh_entsize].
    rewrite Ey, <- Lg. unfold u32_ok in *. change SHT_GROUP with 17. split; [exact Hu|]. split; [lia|]. split; [apply word_small; lia|]. split; [apply word_small; lia|]. split; [exact W1|]. split; [exact W2|]. split; [lia|]. split; [lia|]. split; apply word_small; lia.
  - unfold content, group_of, comdat_hdr, wr_group_header. cbn [sc_hdr sc_data fst snd sh_type sh_size sh_offset]. change (SHT_GROUP =? 8) with false. cbv iota. split; [lia|exact Hd].
Qed.
Lemma type_ok s : In s (o_sections o) -> plain_type (fst (flags_of s)) /\ word_ok is64 (snd (flags_of s)) /\ (fst (flags_of s) =? 8) = no_data s.
Proof.
  intro H. pose proof (q_flags _ _ _ p2) as Q. rewrite Forall_forall in Q. specialize (Q _ H). pose proof (of_sections _ _ _ Fit) as Sf. rewrite Forall_forall in Sf. specialize (Sf _ H).
  unfold eo_section_flags in Q. unfold no_data. destruct (se_flags s) as [|t f| | |] eqn:Ef; try discriminate.
  - unfold of_opt in Q. destruct (elf_section_flags (se_kind s)) as [g|] eqn:Eg; [|discriminate]. assert (flags_of s = g) as -> by congruence. clear Q.
    destruct (se_kind s); cbn [elf_section_flags] in Eg; try discriminate; injection Eg as <-; cbn [fst snd is_bss]; (split; [|split; [apply word_small; lia|reflexivity]]); (split; [unfold u32_ok; lia|cbn [In]; lia]).
  - assert (flags_of s = (t, f)) as -> by congruence. cbn [fst snd]. destruct (sf_flags _ _ Sf t f Ef) as (A & B). split; [exact A|]. split; [exact B|reflexivity].
Qed.
Lemma section_good s q off i : zget (combine (combine (o_sections o) (pl_secs p)) (pl_relocs p)) i = Some (s, q, off) -> Forall good (secs_of (s, q, off)).
Proof.
  intro H. destruct (combine_at _ _ _ _ _ H) as (H' & Ho). destruct (combine_at _ _ _ _ _ H') as (Hs & Hq). clear H H'. pose proof (section_at o is_rela is64 p R nd P1 Few Sok Yok h F Wr _ _ _ Hs Hq) as W.
  apply zget_In in Hs as Is. destruct (type_ok s Is) as ((T1 & _) & T2 & T3). pose proof (of_sections _ _ _ Fit) as Sf. rewrite Forall_forall in Sf. specialize (Sf _ Is). destruct (sf_words _ _ Sf) as (Wa & Ws).
  destruct (sw_name _ _ _ _ _ _ _ W) as (_ & Hu & Hn). pose proof (sw_data _ _ _ _ _ _ _ W) as Hd. destruct (Fw _ _ Hd) as (W1 & W2).
  unfold secs_of. constructor.
  - split; [|split; [exact Hn|]].
    + unfold section_hdr. cbn [sc_hdr]. unfold shdr_ok. cbn [sh_name sh_type sh_flags sh_addr sh_offset sh_size sh_link sh_info sh_addralign sh_entsize]. unfold u32_ok in *.
      assert (word_ok is64 (ew_entsize (se_kind s))) by (apply word_small; destruct (se_kind s); cbn; lia). assert (word_ok is64 0) by (apply word_small; lia). repeat (split; try assumption); lia.
    + unfold content, section_hdr. cbn [sc_hdr sc_data sh_type sh_size sh_offset]. rewrite T3. pose proof (sf_size _ _ Sf) as Z0. destruct (no_data s); [exact Z0|]. split; [exact Z0|exact Hd].
  - destruct (has_relocs s) eqn:Hr; [|constructor]. constructor; [|constructor]. destruct (sw_reloc _ _ _ _ _ _ _ W Hr) as (id & Ei & _ & Hu' & Hn').
    pose proof (relocs_at o is_rela is64 p R nd P1 Few Sok Yok h F Wr _ _ _ Hs Ho Hr) as Hd'. fold (rdata s) in Hd'. destruct (Fw _ _ Hd') as (W3 & W4).
    assert (Lr : zlen (rdata s) = zlen (se_relocs s) * rel_size (r_is64 R) is_rela).
    { unfold rdata. rewrite (zlen_concat_const (rel_size (r_is64 R) is_rela)); [rewrite !zlen_map; lia|]. apply Forall_forall. intros b Hb. apply in_map_iff in Hb. destruct Hb as (r & <- & _). apply zlen_enc_rel. }
    apply zget_Some_lt in Hs as Bs. pose proof (section_no_bound i ltac:(lia)) as Bn. pose proof (sw_index _ _ _ _ _ _ _ W) as Ix. rewrite sec_pos_eq in Ix by lia. pose proof symtab_u32.
    split; [|split].
    + unfold reloc_hdr, wr_reloc_header. rewrite Ei. cbn [sc_hdr]. unfold shdr_ok. cbn [sh_name sh_type sh_flags sh_addr sh_offset sh_size sh_link sh_info sh_addralign sh_entsize].
      rewrite <- Lr. unfold u32_ok in *. split; [exact Hu'|]. split; [destruct is_rela; cbv; split; congruence|]. split; [apply word_small; lia|]. split; [apply word_small; lia|]. split; [exact W3|]. split; [exact W4|]. split; [lia|]. split; [lia|].
      split; apply word_small; destruct (r_is64 R), is_rela; cbn; lia.
    + unfold reloc_hdr, wr_reloc_header. rewrite Ei. exact Hn'.
    + unfold content, reloc_hdr, wr_reloc_header. cbn [sc_hdr sc_data sh_type sh_size sh_offset]. assert (((if is_rela then SHT_RELA else SHT_REL) =? 8) = false) as -> by (destruct is_rela; reflexivity). split; [symmetry; exact Lr|exact Hd'].
Qed.
End Parts.
