(** Proofs about phase 1 of the ELF writer. *)
From Verif Require Import Base Core_spec Core_proofs Str_spec Str_proofs Buf_proofs Map_proofs Util_proofs File_spec File_proofs Hash_proofs Pod_proofs MachW_proofs.
From Verif Require Import ElfW_spec.
Notation strtab := Str_model.strtab (only parsing).

Lemma guard_ok b u : guard b = Ok u -> b = true.
Proof. unfold guard. destruct b; [reflexivity|discriminate]. Qed.
Ltac mb H :=
  match type of H with
  | bind (guard ?b) _ = Ok _ =>
    let E := fresh "G" in destruct (guard b) eqn:E; cbn [bind] in H; [apply guard_ok in E|discriminate|discriminate]
  | bind ?m _ = Ok _ =>
    let E := fresh "E" in destruct m eqn:E; cbn [bind] in H; [|discriminate|discriminate]
  | (let '(_, _) := ?p in _) = Ok _ => destruct p
  end.
Ltac mbs H := repeat mb H.

Lemma slot_beq_eq s t : slot_beq s t = true -> s = t.
Proof. apply internal_slot_dec_bl. Qed.
Lemma slot_beq_refl s : slot_beq s s = true.
Proof. apply internal_slot_dec_lb. reflexivity. Qed.
Lemma upd_same {A} (f : slot -> A) s v : upd f s v s = v.
Proof. unfold upd. rewrite slot_beq_refl. reflexivity. Qed.
Lemma upd_other {A} (f : slot -> A) s t v : s <> t -> upd f s v t = f t.
Proof. unfold upd. intro H. destruct (slot_beq s t) eqn:E; [apply slot_beq_eq in E; congruence|reflexivity]. Qed.

Lemma reserve_inv r len al v r' : r_reserve r len al = Ok (v, r') ->
  r' = with_len r (v + len) /\ v + len < 2 ^ 64 /\ (if 1 <? al then align 64 (r_len r) al = Ok v else v = r_len r).
Proof.
  unfold r_reserve. intro H. mb H. mb H. apply padd_ok in E0. destruct E0 as (-> & Hb).
  assert (a = v) by congruence. subst a. assert (r' = with_len r (v + len)) by congruence. subst r'.
  split; [reflexivity|]. split; [exact Hb|]. destruct (1 <? al); [exact E|congruence].
Qed.
Definition good_align (al : Z) : Prop := 0 <= al <= 1 \/ exists k, 0 <= k < 64 /\ al = 2 ^ k.
Lemma good_ge al r v len x : good_align al -> 0 <= r_len r < 2 ^ 64 -> r_reserve r len al = Ok (v, x) -> r_len r <= v < 2 ^ 64 \/ v = r_len r.
Proof.
  intros Ha Hr H. apply reserve_inv in H. destruct H as (_ & _ & H). destruct Ha as [Ha|(k & Hk & ->)].
  - destruct (Z.ltb_spec 1 al); [lia|]. right. exact H.
  - destruct (1 <? 2 ^ k) eqn:El; [|right; exact H]. left.
    apply align_ok in H; [|exists k; split; [lia|reflexivity]|exact Hr]. destruct H; lia.
Qed.
Lemma reserve_ge r len al v r' : good_align al -> 0 <= r_len r < 2 ^ 64 -> r_reserve r len al = Ok (v, r') -> r_len r <= v.
Proof. intros Ha Hr H. pose proof (good_ge _ _ _ _ _ Ha Hr H). lia. Qed.
Lemma align_2 k : 0 <= k < 64 -> good_align (2 ^ k).
Proof. intro. right. exists k. split; [assumption|reflexivity]. Qed.
Lemma addr_good b : good_align (addr_size b).
Proof. destruct b; [exact (align_2 3 ltac:(lia))|exact (align_2 2 ltac:(lia))]. Qed.
Lemma good_4 : good_align 4. Proof. exact (align_2 2 ltac:(lia)). Qed.
Lemma good_2 : good_align 2. Proof. exact (align_2 1 ltac:(lia)). Qed.
Lemma good_1 : good_align 1. Proof. left. lia. Qed.

Lemma place_inv r s len al v r' : r_place r s len al = Ok (v, r') ->
  exists r1, r_reserve r len al = Ok (v, r1) /\ r' = with_off r1 s v.
Proof. unfold r_place. intro H. mbs H. exists r0. split; congruence. Qed.

(** * Running *)
Lemma run_app l1 l2 r : r_run r (l1 ++ l2) = bind (r_run r l1) (fun '(v1, r1) => bind (r_run r1 l2) (fun '(v2, r2) => Ok (v1 ++ v2, r2))).
Proof.
  revert r. induction l1 as [|c l IH]; intro r; cbn [r_run app bind].
  - destruct (r_run r l2) as [[v r2]| |]; reflexivity.
  - destruct (r_exec r c) as [[v r1]| |]; cbn [bind]; [|reflexivity|reflexivity]. rewrite IH.
    destruct (r_run r1 l) as [[vs r2]| |]; cbn [bind]; [|reflexivity|reflexivity].
    destruct (r_run r2 l2) as [[vs' r3]| |]; reflexivity.
Qed.
Lemma run_split a c b r vs R : r_run r (a ++ c :: b) = Ok (vs, R) ->
  exists va ra v r1 vb, r_run r a = Ok (va, ra) /\ r_exec ra c = Ok (v, r1) /\ r_run r1 b = Ok (vb, R) /\ vs = va ++ v :: vb.
Proof.
  rewrite run_app. intro H. mb H. destruct a0 as [va ra]. mb H. destruct a0 as [vb0 R0].
  cbn [r_run] in E0. mb E0. destruct a0 as [v r1]. mb E0. destruct a0 as [vb R1].
  exists va, ra, v, r1, vb. repeat split; try assumption; congruence.
Qed.
Lemma run_len r cs vs R : r_run r cs = Ok (vs, R) -> zlen vs = zlen cs.
Proof.
  revert r vs R. induction cs as [|c l IH]; intros r vs R; cbn [r_run]; intro H; [assert (vs = []) by congruence; subst; reflexivity|].
  mb H. destruct a as [v r1]. mb H. destruct a as [w r2]. apply IH in E0. assert (vs = v :: w) by congruence. subst. rewrite !zlen_cons. lia.
Qed.

(** unfolds a reserve call into its effects *)
Ltac exec_inv H :=
  cbn [r_exec] in H;
  unfold r_until, r_file_header, r_program_headers, r_null_section, r_section, r_section_headers, r_add, r_tab_index, r_require,
    r_null_symbol, r_symbol, r_dynamic_symbol, r_symtab, r_shndx, r_strings, r_dynamic, r_hash, r_gnu_hash, r_versym, r_verdef, r_verneed,
    r_attributes, r_relocations, r_comdat, r_section, r_next_symbol, r_add in H.

Ltac exec_step H :=
  match type of H with
  | r_place _ _ _ _ = Ok _ => let r1 := fresh "r1" in apply place_inv in H; destruct H as (r1 & H & ?)
  | r_reserve _ _ _ = Ok _ => apply reserve_inv in H; destruct H as (? & ? & ?)
  | bind (match ?m with _ => _ end) _ = Ok _ => let E := fresh "E" in destruct m eqn:E; try discriminate
  | (if ?b then _ else _) = Ok _ => let E := fresh "E" in destruct b eqn:E
  | Ok (?a, ?b) = Ok (?c, ?d) =>
    let Q1 := fresh "Q" in let Q2 := fresh "Q" in assert (Q1 : c = a) by congruence; assert (Q2 : d = b) by congruence; clear H
  | (match ?x with (_, _) => _ end) = Ok _ => let E := fresh "E" in destruct x eqn:E
  | (match ?x with Ok _ => _ | Err => _ | Panic => _ end) = Ok _ => let E := fresh "E" in destruct x eqn:E
  | _ => mb H
  end.
Ltac exec H := exec_inv H; repeat exec_step H; try discriminate; try subst.
Lemma add_inv r s name id r' : r_add r s name = Ok (id, r') ->
  r_off r s = 0 /\ exists t, st_add (r_tab r s) name = (Ok id, t) /\ r' = with_tab r s t.
Proof.
  unfold r_add. intro H. mb H. destruct (st_add (r_tab r s) name) as [[i| |] t]; try discriminate.
  split; [lia|]. exists t. split; congruence.
Qed.
Definition next_section (r : rst) : Z := if r_secs r =? 0 then 1 else r_secs r.
Lemma section_inv r i r' : r_section r = Ok (i, r') ->
  r_shoff r = 0 /\ i = next_section r /\ i + 1 < 2 ^ 32 /\ r' = with_sh r 0 (i + 1).
Proof.
  unfold r_section. intro H. mb H. fold (next_section r) in H. mb H. apply padd_ok in E. destruct E as (-> & Hb).
  assert (r_shoff r = 0) as Z0 by lia. rewrite Z0 in H. split; [exact Z0|]. split; [congruence|].
  assert (i = next_section r) by congruence. subst i. split; [exact Hb|]. congruence.
Qed.
Definition with_first (r : rst) (s : slot) : rst := if r_num r s =? 0 then with_need (with_num r s 1) (strings_of s) else r.
Lemma next_inv r s i r' : r_next_symbol r s = Ok (i, r') ->
  i = r_num (with_first r s) s /\ i + 1 < 2 ^ 32 /\ r' = with_num (with_first r s) s (i + 1).
Proof.
  unfold r_next_symbol. intro H. fold (with_first r s) in H. mb H. apply padd_ok in E. destruct E as (-> & Hb).
  assert (i = r_num (with_first r s) s) by congruence. subst i. split; [reflexivity|]. split; [exact Hb|]. congruence.
Qed.
Lemma enc_strtab_inv t n d t' : enc_strtab t = Ok (n, d, t') -> exists d0, st_write t 1 = (Ok n, d0, t') /\ d = 0 :: d0.
Proof. unfold enc_strtab. destruct (st_write t 1) as [[[m| |] d0] t0]; try discriminate. intro H. exists d0. split; congruence. Qed.

Definition reserved (r : rst) (len al v : Z) : Prop :=
  v + len < 2 ^ 64 /\ (if 1 <? al then align 64 (r_len r) al = Ok v else v = r_len r).
(** what a reserve call does *)
Definition after (r : rst) (c : rcmd) (v : Z) (r' : rst) : Prop :=
  match c with
  | RRange len al => reserved r len al v /\ r' = with_len r (v + len)
  | RUntil off => r_len r <= off /\ v = off /\ r' = with_len r off
  | RFileHeader => r_len r = 0 /\ v = 0 /\ r' = with_len r (ehdr_size (r_is64 r))
  | RProgramHeaders n => r_phoff r = 0 /\
      (n = 0 /\ v = 0 /\ r' = r \/
       n <> 0 /\ reserved r (n * phdr_size (r_is64 r)) (addr_size (r_is64 r)) v /\ r' = with_ph (with_len r (v + n * phdr_size (r_is64 r))) v n)
  | RNullSection => r_secs r = 0 /\ r' = with_sh r (r_shoff r) 1
  | RSection => r_shoff r = 0 /\ v = next_section r /\ v + 1 < 2 ^ 32 /\ r' = with_sh r 0 (v + 1)
  | RSectionHeaders => r_shoff r = 0 /\
      (r_secs r = 0 /\ v = 0 /\ r' = r \/
       r_secs r <> 0 /\ reserved r (r_secs r * shdr_size (r_is64 r)) (addr_size (r_is64 r)) v /\
       r' = with_sh (with_len r (v + r_secs r * shdr_size (r_is64 r))) v (r_secs r))
  | RAdd s name => r_off r s = 0 /\ exists t, st_add (r_tab r s) name = (Ok v, t) /\ r' = with_tab r s t
  | RIndex s => (if slot_indexed s then r_index r s = 0 else r_id r s = None) /\ r_off r SShstrtab = 0 /\ r_shoff r = 0 /\
      exists t id, st_add (r_tab r SShstrtab) (slot_name s) = (Ok id, t) /\ v = next_section r /\ v + 1 < 2 ^ 32 /\
        r' = let r1 := with_sh (with_id (with_tab r SShstrtab t) s (Some id)) 0 (v + 1) in if slot_indexed s then with_index r1 s v else r1
  | RRequire s => r' = with_need r s
  | RNullSymbol s => r_off r s = 0 /\ r_num r s = 0 /\ r' = with_need (with_num r s 1) (strings_of s)
  | RSymbol section => r_off r SSymtab = 0 /\ r_off r SShndx = 0 /\ v = r_num (with_first r SSymtab) SSymtab /\ v + 1 < 2 ^ 32 /\
      r' = let r1 := with_num (with_first r SSymtab) SSymtab (v + 1) in
           match section with Some n => if SHN_LORESERVE <=? n then with_need r1 SShndx else r1 | None => r1 end
  | RDynSymbol => r_off r SDynsym = 0 /\ v = r_num (with_first r SDynsym) SDynsym /\ v + 1 < 2 ^ 32 /\
      r' = with_num (with_first r SDynsym) SDynsym (v + 1)
  | RSymtab s => r_off r s = 0 /\
      (r_num r s = 0 /\ v = 0 /\ r' = r \/
       r_num r s <> 0 /\ reserved r (r_num r s * sym_size (r_is64 r)) (addr_size (r_is64 r)) v /\
       r' = with_off (with_len r (v + r_num r s * sym_size (r_is64 r))) s v)
  | RShndx => r_off r SShndx = 0 /\
      (r_need r SShndx = false /\ v = 0 /\ r' = r \/
       r_need r SShndx = true /\ reserved r (r_num r SSymtab * 4) 4 v /\ r' = with_off (with_len r (v + r_num r SSymtab * 4)) SShndx v)
  | RStrings s => r_off r s = 0 /\
      (strings_needed r s = false /\ v = 0 /\ r' = r \/
       strings_needed r s = true /\ exists n d t, st_write (r_tab r s) 1 = (Ok n, d, t) /\ v = r_len r /\ v + n < 2 ^ 64 /\
       r' = with_off (with_len (with_num (with_data (with_tab r s t) s (0 :: d)) s n) (v + n)) s v)
  | RDynamic n => r_off r SDynamic = 0 /\
      (n = 0 /\ v = 0 /\ r' = r \/
       n <> 0 /\ reserved r (n * dyn_size (r_is64 r)) (addr_size (r_is64 r)) v /\
       r' = with_off (with_len (with_num r SDynamic n) (v + n * dyn_size (r_is64 r))) SDynamic v)
  | RHash b n => reserved r (hash_size b n) 4 v /\ r' = with_off (with_len (with_num r SHash (hash_size b n)) (v + hash_size b n)) SHash v
  | RGnuHash l b n => let size := gnu_hash_size (r_is64 r) l b n in
      reserved r size (addr_size (r_is64 r)) v /\ r' = with_off (with_len (with_num r SGnuHash size) (v + size)) SGnuHash v
  | RVersym => r_off r SVersym = 0 /\
      (r_num r SDynsym = 0 /\ v = 0 /\ r' = r \/
       r_num r SDynsym <> 0 /\ reserved r (r_num r SDynsym * 2) 2 v /\
       r' = with_off (with_len (with_num r SVersym (r_num r SDynsym)) (v + r_num r SDynsym * 2)) SVersym v)
  | RVerdef n aux => r_off r SVerdef = 0 /\
      (n = 0 /\ v = 0 /\ r' = r \/
       n <> 0 /\ reserved r (gnu_verdef_size n aux) 4 v /\
       r' = with_off (with_len (with_aux (with_num r SVerdef n) SVerdef aux) (v + gnu_verdef_size n aux)) SVerdef v)
  | RVerneed n aux => r_off r SVerneed = 0 /\
      (n = 0 /\ v = 0 /\ r' = r \/
       n <> 0 /\ reserved r (gnu_verneed_size n aux) 4 v /\
       r' = with_off (with_len (with_aux (with_num r SVerneed n) SVerneed aux) (v + gnu_verneed_size n aux)) SVerneed v)
  | RAttributes n => r_off r SAttributes = 0 /\
      (n = 0 /\ v = 0 /\ r' = r \/
       n <> 0 /\ reserved r n 1 v /\ r' = with_off (with_len (with_num r SAttributes n) (v + n)) SAttributes v)
  | RRelocations n is_rela => reserved r (n * rel_size (r_is64 r) is_rela) (addr_size (r_is64 r)) v /\ r' = with_len r (v + n * rel_size (r_is64 r) is_rela)
  | RComdat n => reserved r ((n + 1) * 4) 4 v /\ r' = with_len r (v + (n + 1) * 4)
  end.
Lemma reserve_inv' r len al v r' : r_reserve r len al = Ok (v, r') -> reserved r len al v /\ r' = with_len r (v + len).
Proof. intro H. apply reserve_inv in H. unfold reserved. destruct H as (? & ? & ?). split; [split|]; assumption. Qed.
Lemma place_inv' r s len al v r' : r_place r s len al = Ok (v, r') -> reserved r len al v /\ r' = with_off (with_len r (v + len)) s v.
Proof. intro H. apply place_inv in H. destruct H as (r1 & H & ->). apply reserve_inv' in H. destruct H as (? & ->). split; [assumption|reflexivity]. Qed.
Ltac alt H := match type of H with (if ?b then _ else _) = Ok _ => let E := fresh "E" in destruct b eqn:E; [left|right] end.
Lemma exec_after r c v r' : r_exec r c = Ok (v, r') -> after r c v r'.
Proof.
  intro H. destruct c; cbn [r_exec] in H; cbn [after].
  - apply reserve_inv'. exact H.
  - unfold r_until in H. mb H. split; [lia|]. split; congruence.
  - unfold r_file_header in H. mb H. apply reserve_inv in H. destruct H as (-> & _ & H). change (1 <? 1) with false in H. cbv iota in H.
    assert (r_len r = 0) as Z0 by lia. rewrite Z0 in H. subst v. split; [exact Z0|]. split; reflexivity.
  - unfold r_program_headers in H. mb H. split; [lia|]. alt H; [split; [lia|split; congruence]|]. split; [lia|].
    mb H. destruct a0 as [o r1]. apply reserve_inv' in E0. destruct E0 as (? & ->). assert (v = o) by congruence. subst o. split; [assumption|congruence].
  - unfold r_null_section in H. mb H. split; [lia|congruence].
  - apply section_inv. exact H.
  - unfold r_section_headers in H. mb H. split; [lia|]. alt H; [split; [lia|split; congruence]|]. split; [lia|].
    mb H. destruct a0 as [o r1]. apply reserve_inv' in E0. destruct E0 as (? & ->). assert (v = o) by congruence. subst o. split; [assumption|].
    cbn [r_secs with_len] in H. congruence.
  - apply add_inv in H. exact H.
  - unfold r_tab_index in H. mb H. mb H. destruct a0 as [id r1]. cbv zeta in H. mb H. destruct a0 as [i r2].
    apply add_inv in E. destruct E as (Ho & t & Ht & ->). apply section_inv in E0. destruct E0 as (Hs & Hi & Hb & ->).
    cbn [r_shoff with_id with_tab] in Hs. assert (Q : i = v) by congruence. rewrite Q in *. clear Q.
    split; [destruct (slot_indexed s); [lia|destruct (r_id r s); [discriminate|reflexivity]]|]. split; [exact Ho|]. split; [exact Hs|].
    exists t, id. split; [exact Ht|]. split; [exact Hi|]. split; [exact Hb|]. cbv zeta. congruence.
  - unfold r_require in H. congruence.
  - unfold r_null_symbol in H. mb H. mb H. split; [lia|]. split; [lia|congruence].
  - unfold r_symbol in H. mb H. mb H. mb H. destruct a1 as [i r1]. apply next_inv in E. destruct E as (-> & Hb & ->).
    assert (v = r_num (with_first r SSymtab) SSymtab) by congruence. subst v.
    split; [lia|]. split; [lia|]. split; [reflexivity|]. split; [exact Hb|]. cbv zeta. congruence.
  - unfold r_dynamic_symbol in H. mb H. apply next_inv in H. split; [lia|exact H].
  - unfold r_symtab in H. mb H. split; [lia|]. alt H; [split; [lia|split; congruence]|]. split; [lia|]. apply place_inv'. exact H.
  - unfold r_shndx in H. mb H. split; [lia|]. alt H; [destruct (r_need r SShndx); [discriminate|]; split; [reflexivity|split; congruence]|].
    destruct (r_need r SShndx); [|discriminate]. split; [reflexivity|]. apply place_inv'. exact H.
  - unfold r_strings in H. mb H. split; [lia|]. alt H; [destruct (strings_needed r s); [discriminate|]; split; [reflexivity|split; congruence]|].
    destruct (strings_needed r s); [|discriminate]. split; [reflexivity|]. mb H. destruct a0 as [[n d] t]. apply enc_strtab_inv in E0.
    destruct E0 as (d0 & Hw & ->). apply place_inv' in H. destruct H as ((Hb & H) & ->). change (1 <? 1) with false in H. cbv iota in H.
    cbn [r_len with_num with_data with_tab] in H. exists n, d0, t. split; [exact Hw|]. split; [exact H|]. split; [exact Hb|reflexivity].
  - unfold r_dynamic in H. mb H. split; [lia|]. alt H; [split; [lia|split; congruence]|]. split; [lia|]. mb H.
    unfold pmul in E0. destruct (_ <? _); [|discriminate]. assert (a0 = n * dyn_size (r_is64 r)) by congruence. subst a0. apply place_inv' in H. exact H.
  - apply place_inv' in H. exact H.
  - apply place_inv' in H. exact H.
  - unfold r_versym in H. mb H. split; [lia|]. alt H; [split; [lia|split; congruence]|]. split; [lia|]. apply place_inv' in H. exact H.
  - unfold r_verdef in H. mb H. split; [lia|]. alt H; [split; [lia|split; congruence]|]. split; [lia|]. apply place_inv' in H. exact H.
  - unfold r_verneed in H. mb H. split; [lia|]. alt H; [split; [lia|split; congruence]|]. split; [lia|]. apply place_inv' in H. exact H.
  - unfold r_attributes in H. mb H. split; [lia|]. alt H; [split; [lia|split; congruence]|]. split; [lia|]. apply place_inv' in H. exact H.
  - apply reserve_inv'. exact H.
  - apply reserve_inv'. exact H.
Qed.

Ltac proj := cbn [r_is64 r_end r_len r_phoff r_segs r_shoff r_secs r_id r_index r_off r_num r_aux r_need r_tab r_data
  with_len with_ph with_sh with_id with_index with_off with_num with_aux with_need with_tab with_data].
Ltac proj_in H := cbn [r_is64 r_end r_len r_phoff r_segs r_shoff r_secs r_id r_index r_off r_num r_aux r_need r_tab r_data
  with_len with_ph with_sh with_id with_index with_off with_num with_aux with_need with_tab with_data] in H.
(** splits the effect of a call into its cases, with [r'] replaced *)
Ltac ac A :=
  match type of A with
  | after _ ?c _ _ => destruct c; cbn [after] in A; cbv zeta in A; ac A
  | _ /\ _ => let A1 := fresh "A" in let A2 := fresh "A" in destruct A as [A1 A2]; ac A1; ac A2
  | _ \/ _ => destruct A as [A|A]; ac A
  | exists x, _ => let y := fresh x in destruct A as (y & A); ac A
  | ?r' = _ => is_var r'; first [subst r'|idtac]
  | _ => idtac
  end.
Lemma after_const r c v r' : after r c v r' -> r_is64 r' = r_is64 r /\ r_end r' = r_end r.
Proof.
  intro A. ac A; proj; try (split; reflexivity).
  - destruct (slot_indexed s); split; reflexivity.
  - unfold with_first. destruct section as [n|]; [destruct (_ <=? _)|]; proj; destruct (_ =? 0); split; reflexivity.
  - unfold with_first. destruct (_ =? 0); split; reflexivity.
Qed.
Lemma first_fields r s : r_len (with_first r s) = r_len r /\ r_off (with_first r s) = r_off r /\ r_phoff (with_first r s) = r_phoff r /\
  r_segs (with_first r s) = r_segs r /\ r_shoff (with_first r s) = r_shoff r /\ r_secs (with_first r s) = r_secs r /\ r_id (with_first r s) = r_id r /\
  r_index (with_first r s) = r_index r /\ r_aux (with_first r s) = r_aux r /\ r_tab (with_first r s) = r_tab r /\ r_data (with_first r s) = r_data r /\
  (forall t, t <> s -> r_num (with_first r s) t = r_num r t) /\
  r_num (with_first r s) s = (if r_num r s =? 0 then 1 else r_num r s).
Proof.
  unfold with_first. destruct (Z.eqb_spec (r_num r s) 0); proj; repeat split; try reflexivity.
  - intros t Ht. apply upd_other. congruence.
  - apply upd_same.
Qed.
(** * Sizes *)
Lemma reserved_ge r len al v : good_align al -> 0 <= r_len r < 2 ^ 64 -> 0 <= len -> reserved r len al v -> r_len r <= v /\ v + len < 2 ^ 64.
Proof.
  intros Ha Hr Hl (Hb & H). split; [|exact Hb]. destruct Ha as [Ha|(k & Hk & ->)].
  - destruct (Z.ltb_spec 1 al); lia.
  - destruct (1 <? 2 ^ k) eqn:El; [|lia].
    apply align_ok in H; [|exists k; split; [lia|reflexivity]|exact Hr]. destruct H; lia.
Qed.

(** * The state after the calls [a] *)
Lemma parts_snoc a c : parts_of (a ++ [c]) = parts_of a ++ match part_of c with Some p => [p] | None => [] end.
Proof. unfold parts_of. rewrite flat_map_app. cbn [flat_map]. rewrite app_nil_r. reflexivity. Qed.
Lemma headers_snoc a c : headers (a ++ [c]) = headers a ++ match c with RSection => [None] | RIndex s => [Some s] | _ => [] end.
Proof. unfold headers. rewrite flat_map_app. cbn [flat_map]. rewrite app_nil_r. reflexivity. Qed.
Lemma symbols_snoc s a c : symbols s (a ++ [c]) = symbols s a + match c with RSymbol _ => Z.b2z (slot_beq s SSymtab) | RDynSymbol => Z.b2z (slot_beq s SDynsym) | _ => 0 end.
Proof.
  unfold symbols. rewrite filter_app, zlen_app. f_equal. cbn [filter]. destruct c; try reflexivity; destruct (slot_beq s _); reflexivity.
Qed.
Lemma symbols_nonneg s a : 0 <= symbols s a.
Proof. apply zlen_nonneg. Qed.
Definition is_strs (s : slot) : Prop := In s [SShstrtab; SStrtab; SDynstr].
Definition is_syms (s : slot) : Prop := In s [SSymtab; SDynsym].

Definition name_found (r : rst) (s : slot) (id : Z) : Prop :=
  exists o, st_maybe_get_offset (r_tab r SShstrtab) (Some id) = Ok o /\ u32_ok o /\ string_at (r_data r SShstrtab) o (slot_name s).
Record inv (a : list rcmd) (r : rst) : Prop := {
  i_len : 0 < r_len r < 2 ^ 64;
  i_off : forall s, ~ In (PTable s) (parts_of a) -> r_off r s = 0;
  i_num : forall s, is_syms s -> (r_num r s = 0 /\ symbols s a = 0 \/ r_num r s = 1 + symbols s a) /\ r_num r s < 2 ^ 32;
  i_secs : (r_secs r = 0 /\ headers a = [] \/ r_secs r = 1 + zlen (headers a)) /\ r_secs r < 2 ^ 32;
  i_hdr : forall i s, zget (headers a) i = Some (Some s) -> r_id r s <> None /\ (slot_indexed s = true -> r_index r s = i + 1);
  i_idx : forall s, r_id r s <> None -> In (Some s) (headers a) /\ (slot_indexed s = true -> r_index r s <> 0);
  i_id : forall s id, r_id r s = Some id -> index_of (slot_name s) (st_strings (r_tab r SShstrtab)) = Some id /\ 0 <= id < 2 ^ 32;
  i_few : forall s, zlen (st_strings (r_tab r s)) <= zlen a;
  i_tab : forall s, is_strs s -> r_off r s = 0 -> tinv (r_tab r s) /\ st_in_order (r_tab r s) = false;
  i_data : forall s, is_strs s -> r_off r s <> 0 -> zlen (r_data r s) = r_num r s;
  i_names : r_off r SShstrtab <> 0 -> forall s id, r_id r s = Some id -> name_found r s id
}.
Lemma st_write_inv t n d t' : tinv t -> st_in_order t = false -> st_write t 1 = (Ok n, d, t') ->
  n = 1 + zlen d /\ n < 2 ^ 32 /\ st_strings t' = st_strings t /\
  (forall id s, zget (st_strings t) id = Some s -> str_ok s -> exists o, zget (st_offsets t') id = Some o /\ u32_ok o /\ string_at (0 :: d) o s).
Proof.
  intros Ht Ho E. destruct (write_merge t [0] Ht Ho) as (ws & w & t1 & Ew & Hw & _ & Hm & Hst & _ & Ln & _ & Hl); [left; exists []; reflexivity|].
  change (zlen [0]) with 1 in *. rewrite Ew in E. destruct (Z.ltb_spec (1 + zlen w) (2 ^ 32)) as [Lw|]; [|discriminate]. specialize (Hl Lw).
  assert (n = 1 + zlen w /\ d = w /\ t' = t1) as (-> & -> & ->) by (split; [|split]; congruence).
  repeat (split; [first [reflexivity|assumption|lia]|]).
  intros id s Hs Hok. destruct (Hl id s Hs) as (off & Hoff & Bo & Hloc). exists off. split; [exact Hoff|]. split; [exact Bo|].
  split; [|apply Hok]. destruct Hloc as (x & y & E1 & E2). exists x, y. split; [|exact E2]. rewrite <- app_assoc. exact E1.
Qed.
Lemma has_null_ok s : has_null s = false -> bytes_ok s -> str_ok s.
Proof.
  intros H Hb. split; [exact Hb|]. intro Hin. unfold has_null in H.
  assert (existsb (fun b : Z => b =? 0) s = true) by (apply existsb_exists; exists 0; split; [exact Hin|reflexivity]). congruence.
Qed.
Lemma index_of_app s l x i : index_of s l = Some i -> index_of s (l ++ x) = Some i.
Proof.
  revert i. induction l as [|y l IH]; intros i; cbn [index_of app]; [discriminate|]. destruct (bytes_eqb s y); [auto|].
  destruct (index_of s l); [|discriminate]. intro H. injection H as <-. rewrite (IH _ eq_refl). reflexivity.
Qed.
Lemma st_add_ok t s id t' : tinv t -> st_in_order t = false -> bytes_ok s -> zlen (st_strings t) < 2 ^ 32 -> st_add t s = (Ok id, t') ->
  tinv t' /\ st_in_order t' = false /\ zlen (st_strings t') <= zlen (st_strings t) + 1 /\ (exists x, st_strings t' = st_strings t ++ x) /\
  index_of s (st_strings t') = Some id /\ 0 <= id < 2 ^ 32.
Proof.
  intros Ht Ho Hb Hl E. assert (Hs : str_ok s).
  { apply has_null_ok; [|exact Hb]. unfold st_add in E. destruct (has_null s); [|reflexivity]. destruct (negb _); discriminate. }
  destruct (st_add_spec t s Ht Hs Hl) as (id1 & t1 & E1 & Ht1 & (x & Hx & Hc) & Hz & Hid & Ho1 & _).
  assert (id1 = id /\ t1 = t') as (-> & ->) by (split; congruence).
  split; [exact Ht1|]. split; [congruence|]. split; [rewrite Hx, zlen_app; destruct Hc as [(-> & _)| ->]; [change (zlen (@nil bytes)) with 0|change (zlen [s]) with 1]; lia|].
  split; [exists x; exact Hx|]. split; [|exact Hid]. apply index_of_NoDup; [|exact Hz]. destruct Ht1. assumption.
Qed.
Lemma slot_name_ok s : bytes_ok (slot_name s).
Proof. destruct s; apply bytes_ok_forallb; vm_compute; reflexivity. Qed.
Ltac slots H := unfold is_strs, is_syms in H; cbn [In] in H; destruct H as [H|H]; [symmetry in H|first [destruct H as [H|H]; [symmetry in H|]|idtac]].
Lemma num_nonneg a r s : inv a r -> is_syms s -> 0 <= r_num r s < 2 ^ 32.
Proof. intros I H. destruct (i_num _ _ I s H) as ([(-> & _)| ->] & ?); [lia|]. pose proof (symbols_nonneg s a). lia. Qed.
Lemma step_len a c r v r' : inv a r -> call_ok c -> after r c v r' -> 0 < r_len r' < 2 ^ 64.
Proof.
  intros I C A. pose proof (i_len _ _ I) as L.
  pose proof (num_nonneg a r SSymtab I (or_introl eq_refl)) as N1. pose proof (num_nonneg a r SDynsym I (or_intror (or_introl eq_refl))) as N2.
  assert (W : forall len al, good_align al -> 0 <= len -> reserved r len al v -> 0 < v + len < 2 ^ 64).
  { intros len al Ha Hl Hr. assert (L' : 0 <= r_len r < 2 ^ 64) by lia. pose proof (reserved_ge r len al v Ha L' Hl Hr). lia. }
  pose proof (i_secs _ _ I) as (S1 & S2). pose proof (zlen_nonneg (headers a)).
  ac A; proj; cbn [call_ok] in C; try exact L; try lia.
  - apply (W _ al); [exact (proj2 C)|lia|assumption].
  - apply (W _ _ (addr_good (r_is64 r))); [destruct (r_is64 r); cbn [phdr_size]; lia|assumption].
  - apply (W _ _ (addr_good (r_is64 r))); [destruct (r_is64 r); cbn [shdr_size]; lia|assumption].
  - destruct (slot_indexed s); exact L.
  - destruct (first_fields r SSymtab) as (F1 & _). destruct section as [n|]; [destruct (_ <=? _)|]; proj; rewrite F1; exact L.
  - destruct (first_fields r SDynsym) as (F1 & _). rewrite F1; exact L.
  - pose proof (num_nonneg a r s I C). apply (W _ _ (addr_good (r_is64 r))); [destruct (r_is64 r); cbn [sym_size]; lia|assumption].
  - apply (W _ _ good_4); [lia|assumption].
  - match goal with E : st_write (r_tab r s) 1 = _, O : r_off r s = 0 |- _ => destruct (i_tab _ _ I s C O) as (T1 & T2); destruct (st_write_inv _ _ _ _ T1 T2 E) as (Q & _) end.
    pose proof (zlen_nonneg d). lia.
  - apply (W _ _ (addr_good (r_is64 r))); [destruct (r_is64 r); cbn [dyn_size]; lia|assumption].
  - apply (W _ _ good_4); [unfold hash_size; lia|assumption].
  - apply (W _ _ (addr_good (r_is64 r))); [unfold gnu_hash_size; destruct (r_is64 r); lia|assumption].
  - apply (W _ _ good_2); [lia|assumption].
  - apply (W _ _ good_4); [unfold gnu_verdef_size; lia|assumption].
  - apply (W _ _ good_4); [unfold gnu_verneed_size; lia|assumption].
  - apply (W _ _ good_1); [lia|assumption].
  - apply (W _ _ (addr_good (r_is64 r))); [destruct (r_is64 r), is_rela; cbn [rel_size]; lia|assumption].
  - apply (W _ _ good_4); [lia|assumption].
Qed.
(** * What a call leaves unchanged *)
Definition tab_of (c : rcmd) : option slot := match c with RAdd s _ | RStrings s => Some s | RIndex _ => Some SShstrtab | _ => None end.
Ltac frame_case :=
  proj;
  repeat match goal with
  | |- context [if slot_indexed ?s then _ else _] => destruct (slot_indexed s); proj
  | |- context [match ?o with Some _ => _ | None => _ end] => is_var o; destruct o; proj
  | |- context [if SHN_LORESERVE <=? ?n then _ else _] => destruct (SHN_LORESERVE <=? n); proj
  | |- context [with_first ?r ?s] => destruct (first_fields r s) as (-> & -> & -> & -> & -> & -> & -> & -> & -> & -> & -> & ?FN & _); proj
  | |- context [with_first ?r ?s] => unfold with_first; destruct (r_num r s =? 0); proj
  end;
  try rewrite !upd_other by (intro; subst; cbn in *; congruence);
  try reflexivity; try congruence.
Lemma frame_off r c v r' s : after r c v r' -> part_of c <> Some (PTable s) -> r_off r' s = r_off r s.
Proof. intros A H. ac A; cbn [part_of] in H; unfold with_first; frame_case; destruct (_ =? 0); reflexivity. Qed.
Lemma frame_secs r c v r' : after r c v r' -> c <> RNullSection -> c <> RSection -> (forall s, c <> RIndex s) -> r_secs r' = r_secs r.
Proof. intros A H1 H2 H3. ac A; try congruence; try (exfalso; eapply H3; reflexivity); unfold with_first; frame_case; destruct (_ =? 0); reflexivity. Qed.
Lemma frame_id r c v r' : after r c v r' -> (forall s, c <> RIndex s) -> r_id r' = r_id r /\ r_index r' = r_index r.
Proof. intros A H. ac A; try (exfalso; eapply H; reflexivity); unfold with_first; split; frame_case; destruct (_ =? 0); reflexivity. Qed.
Lemma frame_tab r c v r' s : after r c v r' -> tab_of c <> Some s -> r_tab r' s = r_tab r s.
Proof. intros A H. ac A; cbn [tab_of] in H; unfold with_first; frame_case; destruct (_ =? 0); reflexivity. Qed.
Lemma frame_data r c v r' s : after r c v r' -> c <> RStrings s -> r_data r' s = r_data r s.
Proof. intros A H. ac A; unfold with_first; frame_case; destruct (_ =? 0); reflexivity. Qed.
Lemma frame_num r c v r' s : after r c v r' -> (part_of c <> Some (PTable s) \/ c = RSymtab s) -> symbol_of c <> Some s ->
  r_num r' s = r_num r s /\ r_aux r' s = r_aux r s.
Proof.
  intros A H H2. ac A; cbn [part_of symbol_of] in H, H2; (destruct H as [H|H]; [|try discriminate]); unfold with_first; split; frame_case.
  all: destruct (_ =? 0); proj; try rewrite !upd_other by congruence; reflexivity.
Qed.
Lemma frame_sh r c v r' : after r c v r' -> part_of c <> Some PSections -> r_shoff r' = r_shoff r.
Proof. intros A H. ac A; cbn [part_of] in H; unfold with_first; frame_case; try (destruct (_ =? 0); reflexivity). Qed.
Lemma frame_ph r c v r' : after r c v r' -> part_of c <> Some PSegments -> r_phoff r' = r_phoff r /\ r_segs r' = r_segs r.
Proof. intros A H. ac A; cbn [part_of] in H; unfold with_first; split; frame_case; try (destruct (_ =? 0); reflexivity). Qed.
Lemma upd_strings {A} (f : slot -> A) s v : upd f (strings_of s) v SShndx = f SShndx.
Proof. apply upd_other. destruct s; discriminate. Qed.
Lemma frame_need r c v r' : after r c v r' -> c <> RRequire SShndx -> symbol_of c <> Some SSymtab -> r_need r' SShndx = r_need r SShndx.
Proof.
  intros A H1 H2. ac A; cbn [symbol_of] in H2; unfold with_first; frame_case; try apply upd_strings; try (exfalso; congruence).
  destruct (_ =? 0); proj; reflexivity.
Qed.
(** * The invariant is kept *)
Lemma step_off a c r v r' : inv a r -> after r c v r' -> forall s, ~ In (PTable s) (parts_of (a ++ [c])) -> r_off r' s = 0.
Proof.
  intros I A s H. rewrite parts_snoc in H. rewrite (frame_off _ _ _ _ s A).
  - apply (i_off _ _ I). intro Q. apply H. apply in_or_app. left. exact Q.
  - intro Q. apply H. apply in_or_app. right. rewrite Q. left. reflexivity.
Qed.
Lemma step_num a c r v r' : inv a r -> call_ok c -> after r c v r' ->
  forall s, is_syms s -> (r_num r' s = 0 /\ symbols s (a ++ [c]) = 0 \/ r_num r' s = 1 + symbols s (a ++ [c])) /\ r_num r' s < 2 ^ 32.
Proof.
  intros I C A s Hs. pose proof (i_num _ _ I s Hs) as N. rewrite symbols_snoc.
  destruct (symbol_of c) as [t|] eqn:Es.
  - destruct (slot_beq t s) eqn:Et.
    + apply slot_beq_eq in Et. subst t. destruct c; cbn [symbol_of] in Es; try discriminate.
      * assert (s0 = s) by congruence. subst s0. cbn [after] in A. destruct A as (_ & A & ->). proj. rewrite upd_same. cbv iota. pose proof (symbols_nonneg s a). lia.
      * assert (s = SSymtab) by congruence. subst s. cbn [after] in A. destruct A as (_ & _ & A & B & ->). cbv zeta.
        change (slot_beq SSymtab SSymtab) with true. cbn [Z.b2z].
        destruct (first_fields r SSymtab) as (_ & _ & _ & _ & _ & _ & _ & _ & _ & _ & _ & _ & F). rewrite F in A.
        assert (Q : forall q : rst, r_num (match section with Some n => if SHN_LORESERVE <=? n then with_need q SShndx else q | None => q end) = r_num q)
          by (intro q; destruct section; [destruct (_ <=? _)|]; reflexivity).
        rewrite Q. proj. rewrite upd_same. cbv iota. pose proof (symbols_nonneg SSymtab a). revert A. destruct (Z.eqb_spec (r_num r SSymtab) 0); intro A; lia.
      * assert (s = SDynsym) by congruence. subst s. cbn [after] in A. destruct A as (_ & A & B & ->).
        change (slot_beq SDynsym SDynsym) with true. cbn [Z.b2z].
        destruct (first_fields r SDynsym) as (_ & _ & _ & _ & _ & _ & _ & _ & _ & _ & _ & _ & F). rewrite F in A.
        proj. rewrite upd_same. cbv iota. pose proof (symbols_nonneg SDynsym a). revert A. destruct (Z.eqb_spec (r_num r SDynsym) 0); intro A; lia.
    + assert (t <> s) by (intros ->; rewrite slot_beq_refl in Et; discriminate).
      destruct (frame_num _ _ _ _ s A) as (-> & _).
      * left. destruct c; discriminate.
      * rewrite Es. congruence.
      * replace (match c with RSymbol _ => _ | RDynSymbol => _ | _ => 0 end) with 0; [rewrite Z.add_0_r; exact N|].
        destruct c; cbn [symbol_of] in Es; try discriminate; try reflexivity; injection Es as <-; destruct s; try reflexivity; congruence.
  - replace (match c with RSymbol _ => _ | RDynSymbol => _ | _ => 0 end) with 0 by (destruct c; cbn [symbol_of] in Es; try discriminate; reflexivity).
    rewrite Z.add_0_r. destruct (frame_num _ _ _ _ s A) as (-> & _); [|congruence|exact N].
    destruct c; cbn [part_of]; try (left; congruence); try (left; intro Q; injection Q as <-; destruct Hs as [Q|[Q|[]]]; discriminate).
    + destruct (slot_beq s0 s) eqn:Et; [apply slot_beq_eq in Et; subst; right; reflexivity|].
      left. intro Q. injection Q as <-. rewrite slot_beq_refl in Et. discriminate.
    + left. intro Q. injection Q as <-. cbn [call_ok] in C. destruct Hs as [<-|[<-|[]]]; destruct C as [Q|[Q|[Q|[]]]]; discriminate.
Qed.
Lemma next_section_eq a r : inv a r -> next_section r = 1 + zlen (headers a).
Proof.
  intro I. unfold next_section. destruct (i_secs _ _ I) as (Q & _). pose proof (zlen_nonneg (headers a)).
  destruct (Z.eqb_spec (r_secs r) 0).
  - destruct Q as [(_ & ->)|Q]; [reflexivity|lia].
  - destruct Q as [(Q & _)|Q]; lia.
Qed.
Lemma step_secs a c r v r' : inv a r -> after r c v r' ->
  (r_secs r' = 0 /\ headers (a ++ [c]) = [] \/ r_secs r' = 1 + zlen (headers (a ++ [c]))) /\ r_secs r' < 2 ^ 32.
Proof.
  intros I A. pose proof (i_secs _ _ I) as N. pose proof (next_section_eq _ _ I) as NS. rewrite headers_snoc, zlen_app.
  assert (K : c = RNullSection \/ c = RSection \/ (exists s, c = RIndex s) \/ c <> RNullSection /\ c <> RSection /\ (forall s, c <> RIndex s)).
  { destruct c; try (right; right; right; repeat split; discriminate); [left|right; left|right; right; left; eexists]; reflexivity. }
  destruct K as [->|[->|[(s & ->)|(K1 & K2 & K3)]]].
  - cbn [after] in A. destruct A as (A & ->). proj. change (zlen (@nil (option slot))) with 0. pose proof (zlen_nonneg (headers a)).
    destruct N as ([(_ & ->)|N] & _); [split; [right; reflexivity|lia]|lia].
  - cbn [after] in A. destruct A as (_ & A & B & ->). proj. change (zlen [@None slot]) with 1. lia.
  - cbn [after] in A. destruct A as (_ & _ & _ & t & id & _ & A & B & ->). cbv zeta. change (zlen [Some s]) with 1.
    destruct (slot_indexed s); proj; lia.
  - rewrite (frame_secs _ _ _ _ A K1 K2 K3). replace (match c with RSection => _ | RIndex s => _ | _ => [] end) with (@nil (option slot)).
    + rewrite app_nil_r. change (zlen (@nil (option slot))) with 0. rewrite Z.add_0_r. exact N.
    + destruct c; try reflexivity; [congruence|exfalso; eapply K3; reflexivity].
Qed.
Lemma is_index c : (exists s, c = RIndex s) \/ forall s, c <> RIndex s.
Proof. destruct c; try (right; discriminate). left. eexists. reflexivity. Qed.
Lemma index_get r s v id t : let r' := (let r1 := with_sh (with_id (with_tab r SShstrtab t) s (Some id)) 0 (v + 1) in if slot_indexed s then with_index r1 s v else r1) in
  (forall x, r_id r' x = if slot_beq s x then Some id else r_id r x) /\
  (forall x, slot_indexed x = true -> r_index r' x = if slot_beq s x then v else r_index r x) /\
  r_tab r' = upd (r_tab r) SShstrtab t /\ r_off r' = r_off r /\ r_data r' = r_data r.
Proof.
  cbv zeta. destruct (slot_indexed s) eqn:E; proj; (split; [reflexivity|split; [|split; [|split]; reflexivity]]).
  - intros x _. reflexivity.
  - intros x Hx. destruct (slot_beq s x) eqn:Q; [|reflexivity]. apply slot_beq_eq in Q. congruence.
Qed.
Lemma step_hdr a c r v r' : inv a r -> after r c v r' ->
  forall i s, zget (headers (a ++ [c])) i = Some (Some s) -> r_id r' s <> None /\ (slot_indexed s = true -> r_index r' s = i + 1).
Proof.
  intros I A i s H. pose proof (i_hdr _ _ I) as N. rewrite headers_snoc in H. destruct (is_index c) as [(x & ->)|K].
  - cbn [after] in A. destruct A as (A & _ & _ & t & id & _ & B & _ & ->). destruct (index_get r x v id t) as (G1 & G2 & _). cbv zeta in G1, G2 |- *.
    rewrite G1. rewrite (next_section_eq _ _ I) in B. destruct (Z.ltb_spec i (zlen (headers a))).
    + rewrite zget_app1 in H by assumption. destruct (N _ _ H) as (N1 & N2). split.
      * destruct (slot_beq x s); [discriminate|exact N1].
      * intro Hx. rewrite G2 by assumption. destruct (slot_beq x s) eqn:Q; [|apply N2; assumption].
        apply slot_beq_eq in Q. subst x. rewrite Hx in A. destruct (i_idx _ _ I s N1) as (_ & Q). specialize (Q Hx). congruence.
    + rewrite zget_app2 in H by assumption. apply zget_Some_lt in H as L. change (zlen [Some x]) with 1 in L.
      assert (i = zlen (headers a)) by lia. subst i. rewrite Z.sub_diag, zget_0 in H. assert (x = s) by congruence. subst x.
      rewrite slot_beq_refl. split; [discriminate|]. intro Hx. rewrite G2 by assumption. rewrite slot_beq_refl. lia.
  - destruct (frame_id _ _ _ _ A K) as (-> & ->). destruct (Z.ltb_spec i (zlen (headers a))).
    + rewrite zget_app1 in H by assumption. exact (N _ _ H).
    + rewrite zget_app2 in H by assumption. exfalso. apply zget_In in H. destruct c; try exact H.
      * destruct H as [H|[]]. discriminate.
      * eapply K. reflexivity.
Qed.
Lemma step_idx a c r v r' : inv a r -> after r c v r' ->
  forall s, r_id r' s <> None -> In (Some s) (headers (a ++ [c])) /\ (slot_indexed s = true -> r_index r' s <> 0).
Proof.
  intros I A s H. rewrite headers_snoc. destruct (is_index c) as [(x & ->)|K].
  - cbn [after] in A. destruct A as (A & _ & _ & t & id & _ & B & _ & ->). destruct (index_get r x v id t) as (G1 & G2 & _). cbv zeta in G1, G2, H |- *.
    rewrite G1 in H. rewrite (next_section_eq _ _ I) in B. pose proof (zlen_nonneg (headers a)). destruct (slot_beq x s) eqn:Q.
    + apply slot_beq_eq in Q. subst x. split; [apply in_or_app; right; left; reflexivity|]. intro Hx. rewrite G2 by assumption. rewrite slot_beq_refl. lia.
    + destruct (i_idx _ _ I s H) as (N1 & N2). split; [apply in_or_app; left; exact N1|]. intro Hx. rewrite G2 by assumption. rewrite Q. auto.
  - destruct (frame_id _ _ _ _ A K) as (F1 & F2). rewrite F1 in H. rewrite F2. destruct (i_idx _ _ I s H) as (N1 & N2).
    split; [apply in_or_app; left; exact N1|exact N2].
Qed.
Lemma step_str a c r v r' s : inv a r -> call_ok c -> zlen a < 2 ^ 32 - 1 -> after r c v r' ->
  zlen (st_strings (r_tab r' s)) <= zlen (a ++ [c]) /\ (exists x, st_strings (r_tab r' s) = st_strings (r_tab r s) ++ x) /\
  (is_strs s -> r_off r' s = 0 -> tinv (r_tab r' s) /\ st_in_order (r_tab r' s) = false).
Proof.
  intros I C Hn A. rewrite zlen_app. change (zlen [c]) with 1. pose proof (i_few _ _ I s) as F.
  assert (K : (exists name, c = RAdd s name) \/ c = RStrings s \/ (exists x, c = RIndex x /\ s = SShstrtab) \/ tab_of c <> Some s).
  { destruct c; cbn [tab_of]; try (right; right; right; discriminate).
    - destruct (slot_beq s0 s) eqn:Q; [apply slot_beq_eq in Q; subst; left; eexists; reflexivity|]. right. right. right. intro Q1. injection Q1 as ->.
      rewrite slot_beq_refl in Q. discriminate.
    - destruct (slot_beq SShstrtab s) eqn:Q; [apply slot_beq_eq in Q; subst; right; right; left; eexists; split; reflexivity|]. right. right. right.
      intro Q1. injection Q1 as <-. discriminate.
    - destruct (slot_beq s0 s) eqn:Q; [apply slot_beq_eq in Q; subst; right; left; reflexivity|]. right. right. right. intro Q1. injection Q1 as ->.
      rewrite slot_beq_refl in Q. discriminate. }
  destruct K as [(name & ->)|[->|[(x & -> & ->)|K]]].
  - cbn [after call_ok] in A, C. destruct A as (O & t & E & ->). proj. rewrite upd_same. destruct (i_tab _ _ I s (proj1 C) O) as (T1 & T2).
    destruct (st_add_ok _ _ _ _ T1 T2 (proj2 C) ltac:(lia) E) as (U1 & U2 & U3 & U4 & _). split; [lia|]. split; [exact U4|]. intros _ _. split; assumption.
  - cbn [after call_ok] in A, C. destruct A as (O & A). destruct (i_tab _ _ I s C O) as (T1 & T2). destruct A as [(_ & _ & ->)|(_ & n & d & t & E & Ev & _ & ->)].
    + split; [lia|]. split; [exists []; rewrite app_nil_r; reflexivity|]. intros _ _. split; assumption.
    + proj. rewrite !upd_same. destruct (st_write_inv _ _ _ _ T1 T2 E) as (_ & _ & -> & _). split; [lia|]. split; [exists []; rewrite app_nil_r; reflexivity|].
      pose proof (i_len _ _ I). intros _ Q. lia.
  - cbn [after] in A. destruct A as (_ & O & _ & t & id & E & _ & _ & ->). destruct (index_get r x v id t) as (_ & _ & G3 & G4 & _). cbv zeta in G3, G4 |- *.
    rewrite G3, upd_same. destruct (i_tab _ _ I _ (or_introl eq_refl) O) as (T1 & T2).
    destruct (st_add_ok _ _ _ _ T1 T2 (slot_name_ok x) ltac:(lia) E) as (U1 & U2 & U3 & U4 & _). split; [lia|]. split; [exact U4|]. intros _ _. split; assumption.
  - assert (Q : part_of c <> Some (PTable s) \/ part_of c = Some (PTable s)).
    { destruct (part_of c) as [[| |y]|]; try (left; discriminate). destruct (slot_beq y s) eqn:Q; [apply slot_beq_eq in Q; subst; right; reflexivity|].
      left. intro Q1. injection Q1 as ->. rewrite slot_beq_refl in Q. discriminate. }
    rewrite (frame_tab _ _ _ _ s A K). split; [lia|]. split; [exists []; rewrite app_nil_r; reflexivity|].
    destruct Q as [Q|Q].
    + rewrite (frame_off _ _ _ _ s A Q). apply (i_tab _ _ I s).
    + intros Hs _. exfalso. destruct Hs as [<-|[<-|[<-|[]]]]; destruct c; cbn [part_of tab_of call_ok] in *; try discriminate; try congruence;
        injection Q as ->; destruct C as [Q|[Q|[]]]; discriminate.
Qed.

Lemma inv_step a c r v r' : inv a r -> call_ok c -> zlen a < 2 ^ 32 - 1 -> after r c v r' -> inv (a ++ [c]) r'.
Proof.
  intros I C Hn A. constructor.
  - exact (step_len _ _ _ _ _ I C A).
  - exact (step_off _ _ _ _ _ I A).
  - exact (step_num _ _ _ _ _ I C A).
  - exact (step_secs _ _ _ _ _ I A).
  - exact (step_hdr _ _ _ _ _ I A).
  - exact (step_idx _ _ _ _ _ I A).
  - intros s id H. destruct (step_str a c r v r' SShstrtab I C Hn A) as (_ & (x & Hx) & _). destruct (is_index c) as [(y & ->)|K].
    + cbn [after] in A. destruct A as (_ & O & _ & t & j & E & _ & _ & ->). destruct (index_get r y v j t) as (G1 & _ & G3 & _). cbv zeta in G1, G3, H, Hx |- *.
      destruct (i_tab _ _ I _ (or_introl eq_refl) O) as (T1 & T2). pose proof (i_few _ _ I SShstrtab).
      destruct (st_add_ok _ _ _ _ T1 T2 (slot_name_ok y) ltac:(lia) E) as (_ & _ & _ & _ & U5 & U6).
      rewrite G1 in H. destruct (slot_beq y s) eqn:Q.
      * apply slot_beq_eq in Q. subst y. assert (j = id) by congruence. subst j. rewrite G3, upd_same. split; assumption.
      * destruct (i_id _ _ I _ _ H) as (N1 & N2). split; [|exact N2]. rewrite Hx. apply index_of_app. exact N1.
    + destruct (frame_id _ _ _ _ A K) as (F & _). rewrite F in H. destruct (i_id _ _ I _ _ H) as (N1 & N2). split; [|exact N2].
      rewrite Hx. apply index_of_app. exact N1.
  - intro s. apply (step_str a c r v r' s I C Hn A).
  - intro s. apply (step_str a c r v r' s I C Hn A).
  - intros s Hs H. destruct (part_of c) as [p|] eqn:P.
    + assert (D : c = RStrings s \/ part_of c <> Some (PTable s)).
      { destruct c; cbn [part_of] in *; try (right; congruence); try (right; intro Q; injection Q as <-; destruct Hs as [Q|[Q|[Q|[]]]]; discriminate).
        - right. intro Q. injection Q as ->. cbn [call_ok] in C. destruct Hs as [<-|[<-|[<-|[]]]]; destruct C as [Q|[Q|[]]]; discriminate.
        - destruct (slot_beq s0 s) eqn:Q; [apply slot_beq_eq in Q; subst; left; reflexivity|]. right. intro Q1. injection Q1 as ->.
          rewrite slot_beq_refl in Q. discriminate. }
      destruct D as [->|D].
      * cbn [after call_ok] in A, C. destruct A as (O & A). destruct (i_tab _ _ I s C O) as (T1 & T2).
        destruct A as [(_ & _ & ->)|(_ & n & d & t & E & Ev & _ & ->)]; [congruence|]. proj. rewrite !upd_same.
        destruct (st_write_inv _ _ _ _ T1 T2 E) as (-> & _). rewrite zlen_cons. reflexivity.
      * rewrite (frame_off _ _ _ _ s A D) in H. rewrite (frame_data _ _ _ _ s A) by (intros ->; apply D; reflexivity).
        destruct (frame_num _ _ _ _ s A) as (-> & _); [left; exact D| |exact (i_data _ _ I s Hs H)].
        destruct c; discriminate.
    + assert (D : part_of c <> Some (PTable s)) by congruence.
      rewrite (frame_off _ _ _ _ s A D) in H. rewrite (frame_data _ _ _ _ s A) by (intros ->; apply D; reflexivity).
      destruct (frame_num _ _ _ _ s A) as (-> & _); [left; exact D| |exact (i_data _ _ I s Hs H)].
      destruct c; cbn [symbol_of]; try discriminate; destruct Hs as [<-|[<-|[<-|[]]]]; try discriminate.
      all: cbn [call_ok] in C; destruct C as [<-|[<-|[]]]; discriminate.
  - intros H s id Hid. unfold name_found. destruct (is_index c) as [(y & ->)|K].
    + cbn [after] in A. destruct A as (_ & O & _ & t & j & E & _ & _ & ->). destruct (index_get r y v j t) as (_ & _ & _ & G4 & _). cbv zeta in G4, H. congruence.
    + destruct (frame_id _ _ _ _ A K) as (F & _). rewrite F in Hid.
      assert (D : c = RStrings SShstrtab \/ part_of c <> Some (PTable SShstrtab)).
      { destruct c; cbn [part_of] in *; try (right; congruence); try (right; intro Q; discriminate).
        - right. intro Q. injection Q as ->. cbn [call_ok] in C. destruct C as [Q|[Q|[]]]; discriminate.
        - destruct s0; try (right; congruence). left. reflexivity. }
      destruct D as [->|D].
      * cbn [after call_ok] in A, C. destruct A as (O & A). destruct (i_tab _ _ I _ C O) as (T1 & T2).
        destruct A as [(_ & _ & ->)|(_ & n & d & t & E & Ev & _ & ->)]; [congruence|]. proj. rewrite !upd_same.
        destruct (st_write_inv _ _ _ _ T1 T2 E) as (_ & _ & _ & L). destruct (i_id _ _ I _ _ Hid) as (N1 & N2). apply index_of_Some in N1.
        destruct (L _ _ N1) as (o & Z1 & Z2 & Z3).
        { split; [apply slot_name_ok|]. destruct s; intro Q; cbn [slot_name] in Q; vm_compute in Q; intuition discriminate. }
        exists o. cbn [st_maybe_get_offset]. unfold st_get_offset. rewrite Z1. split; [reflexivity|]. split; assumption.
      * rewrite (frame_off _ _ _ _ _ A D) in H. rewrite (frame_data _ _ _ _ _ A) by (intros ->; apply D; reflexivity).
        rewrite (frame_tab _ _ _ _ _ A); [exact (i_names _ _ I H s id Hid)|].
        destruct c; cbn [tab_of]; try discriminate.
        -- intro Q. injection Q as ->. cbn [after] in A. destruct A as (A & _). congruence.
        -- exfalso. eapply K. reflexivity.
        -- intro Q. injection Q as ->. apply D. reflexivity.
Qed.
Lemma inv_first is64 e v r' : after (r_new is64 e) RFileHeader v r' -> inv [RFileHeader] r'.
Proof.
  intro A. cbn [after] in A. destruct A as (_ & _ & ->). constructor; unfold r_new; proj.
  - destruct is64; cbn [ehdr_size]; lia.
  - reflexivity.
  - intros s H. split; [left; split; reflexivity|lia].
  - split; [left; split; reflexivity|lia].
  - intros i s H. apply zget_In in H. destruct H.
  - intros. congruence.
  - intros. discriminate.
  - intros. cbn. lia.
  - intros. split; [apply tinv_new|reflexivity].
  - intros. congruence.
  - intros. congruence.
Qed.
Lemma inv_run is64 e a vs r : r_run (r_new is64 e) (RFileHeader :: a) = Ok (vs, r) -> Forall call_ok a -> zlen a < 2 ^ 32 - 1 -> inv (RFileHeader :: a) r.
Proof.
  revert vs r. induction a as [|c a IH] using rev_ind; intros vs r H C L.
  - cbn [r_run] in H. mb H. destruct a as [v r1]. cbn [bind] in H. assert (r = r1) by congruence. subst r1. apply exec_after in E. exact (inv_first _ _ _ _ E).
  - change (RFileHeader :: a ++ [c]) with ((RFileHeader :: a) ++ [c]) in H |- *. apply run_split in H. destruct H as (va & ra & v & r1 & vb & H1 & H2 & H3 & _).
    cbn [r_run] in H3. assert (r1 = r) by congruence. subst r1. rewrite zlen_app in L. change (zlen [c]) with 1 in L. apply Forall_app in C. destruct C as (C1 & C2).
    apply (inv_step _ _ ra v).
    + apply (IH va); [exact H1|exact C1|lia].
    + exact (Forall_inv C2).
    + rewrite zlen_cons. lia.
    + apply exec_after. exact H2.
Qed.
Lemma run_keep {A} (f : rst -> A) (Q : rcmd -> Prop) b : (forall r c v r', after r c v r' -> Q c -> f r' = f r) -> Forall Q b ->
  forall r vs R, r_run r b = Ok (vs, R) -> f R = f r.
Proof.
  intros K. induction 1 as [|c b Hc Hb IH]; intros r vs R H; cbn [r_run] in H; [congruence|].
  mb H. destruct a as [v r1]. mb H. destruct a as [vb R1]. assert (R1 = R) by congruence. subst R1. rewrite (IH _ _ _ E0). apply (K _ _ _ _ (exec_after _ _ _ _ E) Hc).
Qed.
Lemma parts_not p b : ~ In p (parts_of b) -> Forall (fun c => part_of c <> Some p) b.
Proof.
  intro H. apply Forall_forall. intros c Hc Q. apply H. unfold parts_of. apply in_flat_map. exists c. split; [exact Hc|]. rewrite Q. left. reflexivity.
Qed.
Lemma syms_dec s : is_syms s \/ ~ is_syms s.
Proof. destruct s; try (right; intros [Q|[Q|[]]]; discriminate); left; [left|right; left]; reflexivity. Qed.
Lemma symbol_syms c s : call_ok c -> symbol_of c = Some s -> is_syms s.
Proof. intros C H. destruct c; try discriminate; cbn [symbol_of call_ok] in *; injection H as <-; [exact C|left; reflexivity|right; left; reflexivity]. Qed.
(** * From a call to the end of phase 1 *)
Record here (cs a : list rcmd) (c : rcmd) (v : Z) (b : list rcmd) (ra r1 R : rst) : Prop := {
  h_cs : cs = a ++ c :: b;
  h_order : in_order cs;
  h_inv : inv a ra;
  h_after : after ra c v r1;
  h_run : exists vb, r_run r1 b = Ok (vb, R);
  h_final : inv cs R
}.
Lemma nodup_mid {X} (x y : list X) p : NoDup (x ++ p :: y) -> ~ In p x /\ ~ In p y.
Proof. intro H. apply NoDup_remove in H. destruct H as (_ & H). split; intro Q; apply H; apply in_or_app; [left|right]; exact Q. Qed.
Lemma here_parts cs a c v b ra r1 R p : here cs a c v b ra r1 R -> part_of c = Some p -> ~ In p (parts_of a) /\ Forall (fun c => part_of c <> Some p) b.
Proof.
  intros H P. pose proof (io_once _ (h_order _ _ _ _ _ _ _ _ H)) as N. rewrite (h_cs _ _ _ _ _ _ _ _ H) in N. unfold parts_of in N. rewrite flat_map_app in N.
  cbn [flat_map] in N. rewrite P in N. cbn [app] in N. apply nodup_mid in N. destruct N as (N1 & N2). split; [exact N1|]. apply parts_not. exact N2.
Qed.
Lemma here_off cs a c v b ra r1 R s : here cs a c v b ra r1 R -> part_of c = Some (PTable s) -> r_off R s = r_off r1 s.
Proof.
  intros H P. destruct (here_parts _ _ _ _ _ _ _ _ _ H P) as (_ & N). destruct (h_run _ _ _ _ _ _ _ _ H) as (vb & E).
  refine (run_keep (fun r => r_off r s) _ b _ N _ _ _ E). intros. eapply frame_off; eassumption.
Qed.
Lemma here_num cs a c v b ra r1 R s : here cs a c v b ra r1 R -> part_of c = Some (PTable s) -> r_num R s = r_num r1 s /\ r_aux R s = r_aux r1 s.
Proof.
  intros H P. destruct (here_parts _ _ _ _ _ _ _ _ _ H P) as (_ & N). destruct (h_run _ _ _ _ _ _ _ _ H) as (vb & E).
  assert (K : Forall (fun c => symbol_of c <> Some s) b).
  { destruct (h_order _ _ _ _ _ _ _ _ H) as [Ok_ _ _ _ Hs _ _ _]. rewrite (h_cs _ _ _ _ _ _ _ _ H) in Hs, Ok_.
    apply Forall_app in Ok_. destruct Ok_ as (_ & Ok_). apply Forall_inv in Ok_ as Oc. apply Forall_inv_tail in Ok_.
    destruct (syms_dec s) as [S|S].
    - assert (c = RSymtab s) as ->.
      { destruct c; cbn [part_of] in P; try discriminate; try (injection P as <-; destruct S as [Q|[Q|[]]]; discriminate); [injection P as ->; reflexivity|].
        injection P as ->. cbn [call_ok] in Oc. exfalso. destruct S as [<-|[<-|[]]]; destruct Oc as [Q|[Q|[Q|[]]]]; discriminate. }
      apply (Hs a). reflexivity.
    - apply Forall_forall. intros x Hx Q. rewrite Forall_forall in Ok_. specialize (Ok_ x Hx). apply S. apply (symbol_syms _ _ Ok_ Q). }
  assert (f_ : (fun r => (r_num r s, r_aux r s)) R = (fun r => (r_num r s, r_aux r s)) r1).
  { refine (run_keep (fun r => (r_num r s, r_aux r s)) (fun c => part_of c <> Some (PTable s) /\ symbol_of c <> Some s) b _ _ _ _ _ E).
    - intros r c0 v0 r' A (Q1 & Q2). destruct (frame_num _ _ _ _ s A (or_introl Q1) Q2) as (-> & ->). reflexivity.
    - apply Forall_forall. intros x Hx. rewrite Forall_forall in N, K. split; auto. }
  cbv beta in f_. split; congruence.
Qed.
Lemma here_data cs a v b ra r1 R s : here cs a (RStrings s) v b ra r1 R -> r_data R s = r_data r1 s.
Proof.
  intros H. destruct (here_parts _ _ _ _ _ _ _ _ _ H eq_refl) as (_ & N). destruct (h_run _ _ _ _ _ _ _ _ H) as (vb & E).
  refine (run_keep (fun r => r_data r s) _ b _ N _ _ _ E). intros r c v0 r' A Q. apply (frame_data _ _ _ _ _ A). intros ->. apply Q. reflexivity.
Qed.
Lemma here_const cs a c v b ra r1 R : here cs a c v b ra r1 R -> r_is64 R = r_is64 ra /\ r_end R = r_end ra.
Proof.
  intro H. destruct (h_run _ _ _ _ _ _ _ _ H) as (vb & E). destruct (after_const _ _ _ _ (h_after _ _ _ _ _ _ _ _ H)) as (<- & <-).
  assert (T : Forall (fun _ => True) b) by (apply Forall_forall; auto).
  split; [refine (run_keep r_is64 _ b _ T _ _ _ E)|refine (run_keep r_end _ b _ T _ _ _ E)]; intros r c0 v0 r' A _; apply (after_const _ _ _ _ A).
Qed.
Lemma here_ph cs a c v b ra r1 R : here cs a c v b ra r1 R -> part_of c = Some PSegments -> r_phoff R = r_phoff r1 /\ r_segs R = r_segs r1.
Proof.
  intros H P. destruct (here_parts _ _ _ _ _ _ _ _ _ H P) as (_ & N). destruct (h_run _ _ _ _ _ _ _ _ H) as (vb & E).
  split; [refine (run_keep r_phoff _ b _ N _ _ _ E)|refine (run_keep r_segs _ b _ N _ _ _ E)]; intros r c0 v0 r' A Q; apply (frame_ph _ _ _ _ A Q).
Qed.
Lemma here_sh cs a c v b ra r1 R : here cs a c v b ra r1 R -> part_of c = Some PSections -> r_shoff R = r_shoff r1.
Proof.
  intros H P. destruct (here_parts _ _ _ _ _ _ _ _ _ H P) as (_ & N). destruct (h_run _ _ _ _ _ _ _ _ H) as (vb & E).
  refine (run_keep r_shoff _ b _ N _ _ _ E); intros r c0 v0 r' A Q; apply (frame_sh _ _ _ _ A Q).
Qed.
Lemma run_secs b : forall r vs R, Forall (fun c => part_of c <> Some PSections) b -> r_run r b = Ok (vs, R) -> r_shoff r <> 0 -> r_secs r <> 0 ->
  r_secs R = r_secs r /\ headers b = [].
Proof.
  induction b as [|c b IH]; intros r vs R N H S1 S2; cbn [r_run] in H; [split; [congruence|reflexivity]|].
  mb H. destruct a as [v r1]. mb H. destruct a as [vb R1]. assert (R1 = R) by congruence. subst R1. apply exec_after in E.
  apply Forall_inv in N as Nc. apply Forall_inv_tail in N.
  assert (K1 : c <> RNullSection) by (intros ->; cbn [after] in E; destruct E as (E & _); congruence).
  assert (K2 : c <> RSection) by (intros ->; cbn [after] in E; destruct E as (E & _); congruence).
  assert (K3 : forall s, c <> RIndex s) by (intros s ->; cbn [after] in E; destruct E as (_ & _ & E & _); congruence).
  pose proof (frame_secs _ _ _ _ E K1 K2 K3) as F1. pose proof (frame_sh _ _ _ _ E Nc) as F2.
  destruct (IH r1 vb R N E0) as (G1 & G2); [congruence|congruence|]. split; [congruence|].
  unfold headers in *. cbn [flat_map]. rewrite G2. destruct c; try reflexivity; [congruence|exfalso; eapply K3; reflexivity].
Qed.
Lemma here_secs cs a c v b ra r1 R : here cs a c v b ra r1 R -> part_of c = Some PSections -> r_shoff r1 <> 0 -> r_secs r1 <> 0 ->
  r_secs R = r_secs r1 /\ headers cs = headers a.
Proof.
  intros H P S1 S2. destruct (here_parts _ _ _ _ _ _ _ _ _ H P) as (_ & N). destruct (h_run _ _ _ _ _ _ _ _ H) as (vb & E).
  destruct (run_secs b _ _ _ N E S1 S2) as (G1 & G2). split; [exact G1|]. rewrite (h_cs _ _ _ _ _ _ _ _ H). unfold headers in *. rewrite flat_map_app. cbn [flat_map].
  rewrite G2. destruct c; try discriminate. rewrite app_nil_r. reflexivity.
Qed.
Lemma here_need cs a v b ra r1 R : here cs a RShndx v b ra r1 R -> r_need R SShndx = r_need r1 SShndx.
Proof.
  intros H. destruct (h_run _ _ _ _ _ _ _ _ H) as (vb & E). pose proof (io_shndx _ (h_order _ _ _ _ _ _ _ _ H) a b (h_cs _ _ _ _ _ _ _ _ H)) as (_ & N & _).
  refine (run_keep (fun r => r_need r SShndx) _ b _ N _ _ _ E); intros r c0 v0 r' A (Q1 & Q2); apply (frame_need _ _ _ _ A Q2 Q1).
Qed.
