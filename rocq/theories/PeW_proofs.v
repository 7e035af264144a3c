(** Proofs about written PE images: base relocations and the reserve phase. *)
From Coq Require Import Sorted.
From Verif Require Import Core_proofs Util_proofs File_proofs Str_proofs Map_proofs Pod_proofs Iter_proofs Ar_proofs ArSym_proofs Rel_proofs ElfR_proofs Kind_proofs CoffW_proofs CoffR_proofs CoffI_proofs.
From Verif Require Import Pe_spec Pe_proofs PeX_proofs PeI_proofs PeF_proofs PeT_proofs PeW_spec.

(** * Rounding *)
Lemma pow2_pos s : power_of_2 s -> 0 < s < 2 ^ 32.
Proof. intros (k & Hk & ->). split; [apply Z.pow_pos_nonneg; lia|apply Z.pow_lt_mono_r; lia]. Qed.
Lemma round_spec x s : 0 < s -> (s | round_up x s) /\ x <= round_up x s < x + s.
Proof. exact (align_up_spec x s). Qed.
Lemma round_multiple x s : 0 < s -> (s | x) -> round_up x s = x.
Proof. intros H D. symmetry. apply (align_up_unique x s x H D). lia. Qed.
Lemma round_1 x : round_up x 1 = x.
Proof. apply round_multiple; [lia|]. exists x. lia. Qed.
Lemma round_0 s : 0 < s -> round_up 0 s = 0.
Proof. intro. apply round_multiple; [lia|]. exists 0. lia. Qed.
Lemma pow2_align bits s x : power_of_2 s -> 32 <= bits -> 0 <= x -> align bits x s = if x <=? 2 ^ bits - s then Ok (round_up x s) else Panic.
Proof.
  intros (k & Hk & ->) Hb Hx. rewrite align_eq by lia. destruct (_ <=? _); [|reflexivity]. f_equal. unfold round_up.
  pose proof (Z.div_mod (x + (2 ^ k - 1)) (2 ^ k)). assert (0 < 2 ^ k) by (apply Z.pow_pos_nonneg; lia). lia.
Qed.
Lemma pow2_1 : power_of_2 1. Proof. exists 0. split; [lia|reflexivity]. Qed.
Lemma pow2_4 : power_of_2 4. Proof. exists 2. split; [lia|reflexivity]. Qed.
Lemma pow2_8 : power_of_2 8. Proof. exists 3. split; [lia|reflexivity]. Qed.

(** * Base relocations *)
Notation group := (Z * list Z)%type (only parsing).
Definition g_blocks (G : list group) : list (Z * Z) := map (fun g => (fst g, zlen (snd g))) G.
Definition g_relocs (G : list group) : list Z := concat (map snd G).
Definition g_enc (g : group) : bytes := word (fst g) ++ word (8 + 2 * zlen (snd g)) ++ u16s (snd g).
Definition g_bytes (G : list group) : bytes := concat (map g_enc G).
Definition g_pad (G : list group) : list group :=
  match rev G with
  | (va, l) :: older => if Z.odd (zlen l) then rev older ++ [(va, l ++ [0])] else G
  | [] => G
  end.
Definition g_ok (g : group) : Prop := u32_ok (fst g) /\ fst g mod 4096 = 0 /\ Forall u16_ok (snd g) /\ 0 < zlen (snd g).
Definition g_even (g : group) : Prop := Z.even (zlen (snd g)) = true.
Definition g_out (G : list group) : list (Z * Z) := concat (map (fun g => map (entry_reloc (fst g)) (filter (fun r => negb (r =? 0)) (snd g))) G).
Definition g_sorted (G : list group) : Prop := StronglySorted Z.lt (map fst G).
(** all groups but the last have an even number of entries *)
Definition g_inv (G : list group) : Prop := Forall g_ok G /\ g_sorted G /\ Forall g_even (removelast G).
Lemma rev_cases {A} (l : list A) : l = [] \/ exists a x, l = a ++ [x].
Proof. destruct l as [|y l]; [auto|]. right. exists (removelast (y :: l)), (last (y :: l) y). apply app_removelast_last. discriminate. Qed.
Lemma g_pad_nil : g_pad [] = [].
Proof. reflexivity. Qed.
Lemma g_pad_snoc G va l : g_pad (G ++ [(va, l)]) = if Z.odd (zlen l) then G ++ [(va, l ++ [0])] else G ++ [(va, l)].
Proof. unfold g_pad. rewrite rev_app_distr. cbn [rev app]. rewrite rev_involutive. reflexivity. Qed.
Lemma g_out_snoc G g : g_out (G ++ [g]) = g_out G ++ map (entry_reloc (fst g)) (filter (fun r => negb (r =? 0)) (snd g)).
Proof. unfold g_out. rewrite map_app, concat_app. cbn [map concat]. rewrite app_nil_r. reflexivity. Qed.
Lemma g_pad_spec G : g_inv G -> Forall g_ok (g_pad G) /\ g_sorted (g_pad G) /\ Forall g_even (g_pad G) /\ g_out (g_pad G) = g_out G.
Proof.
  intros (H1 & H2 & H3). destruct (rev_cases G) as [->|(a & [va l] & ->)]; [cbn; auto|]. rewrite removelast_last in H3. rewrite g_pad_snoc.
  apply Forall_app in H1 as [Ha Hl]. apply Forall_inv in Hl. destruct Hl as (L1 & L2 & L3 & L4). cbn [fst snd] in *. destruct (Z.odd (zlen l)) eqn:O.
  - split; [|split; [|split]].
    + apply Forall_app. split; [exact Ha|]. constructor; [|constructor]. split; [exact L1|]. split; [exact L2|]. cbn [snd]. split; [apply Forall_app; split; [exact L3|repeat constructor; unfold u16_ok; lia]|rewrite zlen_app; unfold zlen in *; cbn [length]; lia].
    + unfold g_sorted in *. rewrite map_app in *. exact H2.
    + apply Forall_app. split; [exact H3|]. constructor; [|constructor]. unfold g_even. cbn [snd]. rewrite zlen_app. change (zlen [0]) with 1. rewrite Z.even_add. change (Z.even 1) with false. rewrite <- Z.negb_odd, O. reflexivity.
    + rewrite !g_out_snoc. cbn [fst snd]. rewrite filter_app. cbn. rewrite app_nil_r. reflexivity.
  - split; [apply Forall_app; split; [exact Ha|constructor; [|constructor]; unfold g_ok; cbn [fst snd]; auto]|]. split; [exact H2|]. split; [|reflexivity]. apply Forall_app. split; [exact H3|]. constructor; [|constructor]. unfold g_even. cbn [snd]. rewrite <- Z.negb_odd, O. reflexivity.
Qed.
Lemma g_pad_pad G : g_pad (g_pad G) = g_pad G.
Proof.
  destruct (rev_cases G) as [->|(a & [va l] & ->)]; [reflexivity|]. rewrite g_pad_snoc. destruct (Z.odd (zlen l)) eqn:O; rewrite g_pad_snoc; [|rewrite O; reflexivity].
  rewrite zlen_app. change (zlen [0]) with 1. rewrite Z.odd_add, O. reflexivity.
Qed.
Lemma pad_block_eq G m : p_pad_block (g_blocks G) (g_relocs G) = Ok m -> m = (g_blocks (g_pad G), g_relocs (g_pad G)).
Proof.
  unfold p_pad_block. destruct (rev_cases G) as [->|(a & [va l] & ->)]; [cbn; congruence|]. rewrite g_pad_snoc. unfold g_blocks at 1. rewrite map_app. cbn [map]. rewrite rev_app_distr. cbn [rev app fst snd]. rewrite land1_odd, negb_involutive.
  destruct (Z.odd (zlen l)) eqn:O; [|intros [= <-]; reflexivity]. unfold padd. destruct (_ <? _); cbn [bind]; [|discriminate]. intros [= <-]. rewrite rev_involutive. unfold g_blocks, g_relocs. rewrite !map_app, !concat_app. cbn [map concat fst snd]. rewrite !app_nil_r.
  f_equal; [f_equal; f_equal; f_equal; rewrite zlen_app; reflexivity|]. rewrite <- app_assoc. reflexivity.
Qed.
Lemma pad_block_ok G : zlen (g_relocs G) < 2 ^ 32 - 1 -> p_pad_block (g_blocks G) (g_relocs G) = Ok (g_blocks (g_pad G), g_relocs (g_pad G)).
Proof.
  intro H. destruct (p_pad_block (g_blocks G) (g_relocs G)) as [m| |] eqn:E; [apply pad_block_eq in E; congruence| |]; exfalso; revert E; unfold p_pad_block;
  (destruct (rev_cases G) as [->|(a & [va l] & ->)]; [cbn; congruence|]); unfold g_blocks; rewrite map_app; cbn [map]; rewrite rev_app_distr; cbn [rev app fst snd]; destruct (negb _); try discriminate;
  unfold padd; unfold g_relocs in H; rewrite map_app, concat_app, zlen_app in H; cbn [map concat snd] in H; rewrite app_nil_r in H; match type of H with zlen ?x + _ < _ => pose proof (zlen_nonneg x) end; destruct (Z.ltb_spec (zlen l + 1) (2 ^ 32)); cbn [bind]; try discriminate; intros _; lia.
Qed.
Lemma page_land va : u32_ok va -> Z.land va (2 ^ 32 - 1 - 4095) = page_of va.
Proof.
  intros Hv. unfold u32_ok, page_of in *. change (2 ^ 32 - 1 - 4095) with (Z.shiftl (Z.ones 20) 12).
  assert (Ep : va - va mod 4096 = Z.shiftl (Z.shiftr va 12) 12) by (rewrite Z.shiftl_mul_pow2, Z.shiftr_div_pow2 by lia; change (2 ^ 12) with 4096; Z.to_euclidean_division_equations; lia). rewrite Ep.
  apply Z.bits_inj'. intros n Hn. rewrite Z.land_spec. destruct (Z.ltb_spec n 12).
  - rewrite !Z.shiftl_spec_low by lia. apply andb_false_r.
  - rewrite !Z.shiftl_spec by lia. rewrite Z.shiftr_spec by lia. replace (n - 12 + 12) with n by lia. destruct (Z.ltb_spec (n - 12) 20).
    + rewrite Z.ones_spec_low by lia. apply andb_true_r.
    + rewrite Z.ones_spec_high by lia. rewrite andb_false_r. symmetry. destruct (Z.eq_dec va 0) as [->|]; [apply Z.bits_0|]. apply Z.bits_above_log2; [lia|]. assert (Z.log2 va < 32) by (apply Z.log2_lt_pow2; lia). lia.
Qed.
Definition reloc_entry (va typ : Z) : Z := typ * 4096 + va mod 4096.
Lemma entry_eq va typ : u32_ok va -> 0 <= typ < 16 -> Z.lor (wrap_u 16 (Z.shiftl typ 12)) (Z.land va 4095) = reloc_entry va typ.
Proof.
  intros Hv Ht. unfold reloc_entry. change 4095 with (Z.ones 12). rewrite Z.land_ones by lia. rewrite Z.shiftl_mul_pow2 by lia. change (2 ^ 12) with 4096. unfold u32_ok in Hv.
  rewrite wrap_u_id by (change (2 ^ 16) with 65536; lia). change 4096 with (2 ^ 12). pose proof (Z.mod_pos_bound va (2 ^ 12) ltac:(lia)).
  rewrite Z.lor_comm, lor_add' by lia. lia.
Qed.
Lemma entry_round va typ : u32_ok va -> 0 <= typ < 16 -> u16_ok (reloc_entry va typ) /\ entry_reloc (page_of va) (reloc_entry va typ) = (va, typ) /\ negb (reloc_entry va typ =? 0) = kept (va, typ).
Proof.
  intros Hv Ht. unfold u32_ok in Hv. unfold u16_ok, reloc_entry, entry_reloc, page_of, kept. cbn [fst snd]. pose proof (Z.mod_pos_bound va 4096 ltac:(lia)). split; [change (2 ^ 16) with 65536; lia|]. split.
  - f_equal.
    + replace ((typ * 4096 + va mod 4096) mod 4096) with (va mod 4096) by (Z.to_euclidean_division_equations; lia). replace (va - va mod 4096 + va mod 4096) with va by lia. apply Z.mod_small. lia.
    + rewrite Z.add_comm, Z.div_add by lia. rewrite Z.div_small by lia. lia.
  - f_equal. destruct (Z.eqb_spec (va mod 4096) 0), (Z.eqb_spec typ 0), (Z.eqb_spec (typ * 4096 + va mod 4096) 0); cbn [andb]; try reflexivity; lia.
Qed.
Lemma page_ok va : u32_ok va -> u32_ok (page_of va) /\ page_of va mod 4096 = 0.
Proof. unfold u32_ok, page_of. intro. split; Z.to_euclidean_division_equations; lia. Qed.
Lemma g_last_lt G va l p : g_sorted (G ++ [(va, l)]) -> va < p -> Forall g_ok (G ++ [(va, l)]) -> forall l' l2, g_sorted ((G ++ [(va, l')]) ++ [(p, l2)]).
Proof.
  unfold g_sorted. intros H Hp _ l' l2. rewrite !map_app in *. cbn [map fst] in *. rewrite <- app_assoc. cbn [app]. induction (map fst G) as [|x m IH]; cbn [app] in *.
  - repeat constructor. lia.
  - apply StronglySorted_inv in H as [H1 H2]. constructor; [exact (IH H1)|]. apply Forall_app in H2 as [H2 H3]. apply Forall_inv in H3. apply Forall_app. split; [exact H2|]. repeat constructor; lia.
Qed.
Definition rest_same (r r' : pr) : Prop := r' = p_set_relocs r (p_blocks r') (p_relocs r').
Lemma add_reloc_inv r va typ r' G done : reloc_ok (va, typ) -> g_inv G -> p_blocks r = g_blocks G -> p_relocs r = g_relocs G -> g_out G = filter kept done ->
  p_add_reloc r va typ = Ok r' -> exists G', g_inv G' /\ r' = p_set_relocs r (g_blocks G') (g_relocs G') /\ g_out G' = filter kept (done ++ [(va, typ)]) /\
    (G = [] \/ exists a p l, G = a ++ [(p, l)] /\ p <= page_of va) /\ exists a l, G' = a ++ [(page_of va, l)].
Proof.
  intros [Hv Ht] (I1 & I2 & I3) EB EL EO. cbn [fst snd] in *. unfold p_add_reloc. rewrite entry_eq by assumption. rewrite page_land by assumption. destruct (entry_round va typ Hv Ht) as (Q1 & Q2 & Q3). destruct (page_ok va Hv) as [P1 P2].
  assert (Eo : forall l0, map (entry_reloc (page_of va)) (filter (fun r => negb (r =? 0)) (l0 ++ [reloc_entry va typ])) = map (entry_reloc (page_of va)) (filter (fun r => negb (r =? 0)) l0) ++ filter kept [(va, typ)]).
  { intro l0. rewrite filter_app, map_app. f_equal. cbn [filter]. rewrite Q3. destruct (kept (va, typ)); [cbn [map]; rewrite Q2|]; reflexivity. }
  rewrite EB, EL. destruct (rev_cases G) as [->|(a & [bva l] & ->)].
  - cbn [g_blocks map rev g_relocs concat app]. intros [= <-]. exists [(page_of va, [reloc_entry va typ])]. split; [|split; [reflexivity|split; [|split; [auto|exists [], [reloc_entry va typ]; reflexivity]]]].
    + split; [apply Forall_cons; [|apply Forall_nil]|]; [|split].
      * unfold g_ok; cbn [fst snd]. split; [exact P1|]. split; [exact P2|]. split; [constructor; [exact Q1|constructor]|reflexivity].
      * repeat constructor.
      * constructor.
    + rewrite filter_app, <- EO. unfold g_out. cbn [map concat fst snd]. rewrite app_nil_r. exact (Eo []).
  - unfold g_blocks at 1. rewrite map_app. cbn [map]. rewrite rev_app_distr. cbn [rev app fst snd]. rewrite removelast_last in I3. destruct (Z.eqb_spec bva (page_of va)) as [->|Hne].
    + unfold padd. destruct (_ <? _); cbn [bind]; [|discriminate]. intros [= <-]. exists (a ++ [(page_of va, l ++ [reloc_entry va typ])]). split; [|split; [|split; [|split; [right; exists a, (page_of va), l; split; [reflexivity|lia]|eauto]]]].
      * apply Forall_app in I1 as [Ia Il]. apply Forall_inv in Il as (L1 & L2 & L3 & L4). cbn [fst snd] in *. split; [|split].
        -- apply Forall_app. split; [exact Ia|]. constructor; [|constructor]. unfold g_ok; cbn [fst snd]. split; [exact P1|]. split; [exact P2|]. split; [apply Forall_app; split; [exact L3|constructor; [exact Q1|constructor]]|]. rewrite zlen_app. change (zlen [reloc_entry va typ]) with 1. lia.
        -- unfold g_sorted in *. rewrite map_app in *. exact I2.
        -- rewrite removelast_last. exact I3.
      * unfold g_blocks, g_relocs. rewrite rev_involutive, !map_app, !concat_app. cbn [map concat fst snd]. rewrite !app_nil_r. f_equal; [|rewrite <- app_assoc; reflexivity]. do 2 f_equal. f_equal. rewrite zlen_app. reflexivity.
      * rewrite filter_app, <- EO. rewrite !g_out_snoc. cbn [fst snd]. rewrite Eo. rewrite app_assoc. reflexivity.
    + destruct (p_pad_block (g_blocks (a ++ [(bva, l)])) (g_relocs (a ++ [(bva, l)]))) as [m| |] eqn:E; cbn [bind]; try discriminate. apply pad_block_eq in E. subst m. cbv beta iota. destruct (Z.ltb_spec bva (page_of va)); cbn [negb]; [|discriminate]. intros [= <-].
      destruct (g_pad_spec (a ++ [(bva, l)])) as (K1 & K2 & K3 & K4); [split; [exact I1|split; [exact I2|rewrite removelast_last; exact I3]]|].
      exists (g_pad (a ++ [(bva, l)]) ++ [(page_of va, [reloc_entry va typ])]). split; [|split; [|split; [|split; [right; exists a, bva, l; split; [reflexivity|lia]|eauto]]]].
      * split; [|split].
        -- apply Forall_app. split; [exact K1|]. constructor; [|constructor]. unfold g_ok; cbn [fst snd]. split; [exact P1|]. split; [exact P2|]. split; [constructor; [exact Q1|constructor]|reflexivity].
        -- rewrite g_pad_snoc. assert (Z.odd (zlen l) = true \/ Z.odd (zlen l) = false) as [O|O] by (destruct (Z.odd (zlen l)); auto); rewrite O; eapply g_last_lt; eauto.
        -- rewrite removelast_last. exact K3.
      * unfold g_blocks at 2, g_relocs at 2. rewrite !map_app, concat_app. cbn [map concat fst snd]. rewrite app_nil_r. reflexivity.
      * rewrite filter_app, <- EO. rewrite g_out_snoc, K4. f_equal. exact (Eo []).
Qed.
Lemma set_relocs_twice r a b a' b' : p_set_relocs (p_set_relocs r a b) a' b' = p_set_relocs r a' b'.
Proof. reflexivity. Qed.
Lemma add_relocs_inv l : forall r r' G done, Forall reloc_ok l -> g_inv G -> p_blocks r = g_blocks G -> p_relocs r = g_relocs G -> g_out G = filter kept done ->
  p_add_relocs r l = Ok r' -> exists G', g_inv G' /\ r' = p_set_relocs r (g_blocks G') (g_relocs G') /\ g_out G' = filter kept (done ++ l).
Proof.
  induction l as [|[va t] l IH]; intros r r' G done Hl HI EB EL EO E; cbn [p_add_relocs] in E.
  - injection E as <-. exists G. split; [exact HI|]. split; [rewrite <- EB, <- EL; destruct r; reflexivity|]. rewrite app_nil_r. exact EO.
  - destruct (p_add_reloc r va t) as [r1| |] eqn:E1; cbn [bind] in E; try discriminate. destruct (add_reloc_inv r va t r1 G done (Forall_inv Hl) HI EB EL EO E1) as (G1 & HI1 & -> & EO1 & _).
    destruct (IH (p_set_relocs r (g_blocks G1) (g_relocs G1)) r' G1 (done ++ [(va, t)]) (Forall_inv_tail Hl) HI1 eq_refl eq_refl EO1 E) as (G' & HI' & -> & EO'). exists G'. split; [exact HI'|]. split; [reflexivity|]. rewrite <- app_assoc in EO'. exact EO'.
Qed.

Definition g_block (g : group) : rblock := {| rb_va := fst g; rb_size := 8 + 2 * zlen (snd g); rb_relocs := snd g |}.
Lemma zlen_g_enc g : zlen (g_enc g) = 8 + 2 * zlen (snd g).
Proof. unfold g_enc. rewrite !zlen_app, !zlen_word, zlen_u16s. lia. Qed.
Lemma zlen_concat_In {A B} (f : A -> list B) l x : In x l -> zlen (f x) <= zlen (concat (map f l)).
Proof. induction l as [|y l IH]; [contradiction|]. cbn [map concat In]. rewrite zlen_app. pose proof (zlen_nonneg (f y)). pose proof (zlen_nonneg (concat (map f l))). intros [->|Hx]; [lia|]. specialize (IH Hx). lia. Qed.
Lemma reloc_content G done : g_inv G -> g_out G = filter kept done -> zlen (g_bytes (g_pad G)) < 2 ^ 32 -> reloc_section done (g_bytes (g_pad G)).
Proof.
  intros HI HO HL. destruct (g_pad_spec G HI) as (K1 & K2 & K3 & K4). exists (map g_block (g_pad G)). split; [|split].
  - assert (HE : Forall (fun g => block_enc (g_block g) (g_enc g)) (g_pad G)).
    { rewrite Forall_forall in *. intros g Hg. destruct (K1 g Hg) as (A1 & A2 & A3 & A4). pose proof (K3 g Hg) as A5. unfold g_even in A5. pose proof (zlen_concat_In g_enc (g_pad G) g Hg) as Hz. fold (g_bytes (g_pad G)) in Hz. rewrite zlen_g_enc in Hz.
      unfold block_enc, g_block. cbn [rb_va rb_size rb_relocs]. split; [reflexivity|]. split; [exact A1|]. split; [unfold u32_ok; lia|]. split; [exact A3|]. split; [reflexivity|]. split; [lia|].
      apply Zeven_bool_iff, Zeven_ex in A5. destruct A5 as [m ->]. Z.to_euclidean_division_equations; lia. }
    unfold g_bytes. clear - HE. induction HE as [|g G' Hg HE IH]; cbn [map concat]; [constructor|]. constructor; assumption.
  - rewrite map_map. unfold g_out in K4. fold (g_out G) in K4. rewrite <- HO, <- K4. reflexivity.
  - rewrite map_map. exact K2.
Qed.
(** the size of the section, as it is reserved *)
Lemma blocks_size_eq G : forall sum n, p_blocks_size (g_blocks G) sum = Ok n -> n = sum + zlen (g_bytes G).
Proof.
  unfold g_blocks, g_bytes. induction G as [|g G IH]; intros sum n; cbn [map p_blocks_size concat]; [intros [= <-]; change (zlen (@nil Z)) with 0; lia|]. unfold p_block_size, pmul, padd. cbn [snd]. destruct (_ <? _); cbn [bind]; [|discriminate]. destruct (_ <? _); cbn [bind]; [|discriminate]. destruct (_ <? _); cbn [bind]; [|discriminate].
  intro E. apply IH in E. rewrite zlen_app, zlen_g_enc. lia.
Qed.
Lemma blocks_size_ok G : forall sum, 0 <= sum -> sum + zlen (g_bytes G) < 2 ^ 32 -> p_blocks_size (g_blocks G) sum = Ok (sum + zlen (g_bytes G)).
Proof.
  unfold g_blocks, g_bytes. induction G as [|g G IH]; intros sum Hs H; cbn [map p_blocks_size concat] in *; [f_equal; change (zlen (@nil Z)) with 0; lia|]. rewrite zlen_app, zlen_g_enc in *. pose proof (zlen_nonneg (snd g)). pose proof (zlen_nonneg (concat (map g_enc G))). unfold p_block_size, pmul, padd. cbn [snd].
  destruct (Z.ltb_spec (zlen (snd g) * 2) (2 ^ 32)); [|lia]. cbn [bind]. destruct (Z.ltb_spec (8 + zlen (snd g) * 2) (2 ^ 32)); [|lia]. cbn [bind]. destruct (Z.ltb_spec (sum + (8 + zlen (snd g) * 2)) (2 ^ 32)); [|lia]. cbn [bind]. rewrite IH by lia. f_equal. lia.
Qed.
Lemma halfs_u16s l : halfs l = u16s l.
Proof. reflexivity. Qed.
Lemma write_blocks_eq G : forall pre b, zlen (g_bytes G) < 2 ^ 32 ->
  p_write_blocks (pre ++ g_relocs G) (g_blocks G) (zlen pre) b = Ok (b ++ g_bytes G).
Proof.
  unfold g_blocks, g_bytes, g_relocs. induction G as [|[va l] G IH]; intros pre b H; cbn [map concat p_write_blocks fst snd] in *.
  - rewrite !app_nil_r. rewrite Z.eqb_refl. reflexivity.
  - rewrite zlen_app, zlen_g_enc in H. cbn [snd] in H. pose proof (zlen_nonneg l). pose proof (zlen_nonneg (concat (map g_enc G))). unfold p_block_size, pmul, padd. cbn [snd]. destruct (Z.ltb_spec (zlen l * 2) (2 ^ 32)); [|lia]. cbn [bind]. destruct (Z.ltb_spec (8 + zlen l * 2) (2 ^ 32)); [|lia]. cbn [bind].
    rewrite get_from_app by reflexivity. cbn [unwrap bind]. rewrite get_to_app by reflexivity. cbn [unwrap bind]. rewrite halfs_u16s. rewrite app_assoc. rewrite <- zlen_app. rewrite IH by lia. unfold g_enc. cbn [fst snd]. unfold word. rewrite <- !app_assoc. replace (8 + zlen l * 2) with (8 + 2 * zlen l) by lia. reflexivity.
Qed.

(** * The reserve phase, step by step *)
Lemma reserve_inv r len a o r' : power_of_2 a -> 0 <= p_len r -> 0 <= len -> p_reserve r len a = Ok (o, r') ->
  let s := if len =? 0 then p_len r else round_up (p_len r) a in r' = p_set_len r (s + len) /\ o = wrap_u 32 s.
Proof.
  intros Ha H0 Hl. unfold p_reserve, p_reserve_align. destruct (Z.eqb_spec len 0) as [->|].
  - intros [= <- <-]. cbv zeta. rewrite Z.add_0_r. split; [destruct r; reflexivity|reflexivity].
  - rewrite pow2_align by (try assumption; lia). destruct (_ <=? _); cbn [bind]; [|discriminate]. unfold padd. destruct (_ <? _); cbn [bind]; [|discriminate]. intros [= <- <-]. cbv zeta. split; reflexivity.
Qed.
Lemma reserve_ok r len a : power_of_2 a -> 0 <= p_len r -> 0 <= len -> p_len r + a + len < 2 ^ 63 -> exists o r', p_reserve r len a = Ok (o, r').
Proof.
  intros Ha H0 Hl HB. unfold p_reserve, p_reserve_align. destruct (Z.eqb_spec len 0) as [->|]; [eauto|]. pose proof (pow2_pos a Ha). rewrite pow2_align by (try assumption; lia). destruct (Z.leb_spec (p_len r) (2 ^ 64 - a)); [|lia]. cbn [bind].
  destruct (round_spec (p_len r) a ltac:(lia)) as [_ ?]. unfold padd. cbn [p_len p_set_len]. destruct (Z.ltb_spec (round_up (p_len r) a + len) (2 ^ 64)); [|lia]. cbn [bind]. eauto.
Qed.
Lemma reserve_virtual_inv c r n o r' : power_of_2 (pc_salign c) -> 0 <= p_vlen r -> 0 <= n -> p_reserve_virtual c r n = Ok (o, r') ->
  o = p_vlen r /\ r' = p_set_vlen r (round_up (p_vlen r + n) (pc_salign c)) /\ p_vlen r + n <= 2 ^ 32 - pc_salign c.
Proof.
  intros Ha H0 Hn. unfold p_reserve_virtual, padd. destruct (_ <? _); cbn [bind]; [|discriminate]. rewrite pow2_align by (try assumption; lia). destruct (Z.leb_spec (p_vlen r + n) (2 ^ 32 - pc_salign c)); cbn [bind]; [|discriminate]. intros [= <- <-]. auto.
Qed.
Lemma reserve_virtual_ok c r n : power_of_2 (pc_salign c) -> 0 <= p_vlen r -> 0 <= n -> p_vlen r + n <= 2 ^ 32 - pc_salign c -> p_reserve_virtual c r n = Ok (p_vlen r, p_set_vlen r (round_up (p_vlen r + n) (pc_salign c))).
Proof.
  intros Ha H0 Hn HB. pose proof (pow2_pos _ Ha). unfold p_reserve_virtual, padd. destruct (Z.ltb_spec (p_vlen r + n) (2 ^ 32)); [|lia]. cbn [bind]. rewrite pow2_align by (try assumption; lia). destruct (Z.leb_spec (p_vlen r + n) (2 ^ 32 - pc_salign c)); [|lia]. reflexivity.
Qed.
(** what reserving a section does *)
Definition is_code (f : Z) : bool := Z.testbit f 5.
Definition is_data (f : Z) : bool := Z.testbit f 6 && negb (Z.testbit f 5).
Definition is_bss (f : Z) : bool := Z.testbit f 7 && negb (Z.testbit f 5) && negb (Z.testbit f 6).
Definition add_if (b : bool) (x y : Z) : Z := if b then x + y else x.
Definition or_first (b : bool) (x y : Z) : Z := if b then if x =? 0 then y else x else x.
Record sec_step (c : pcfg) (name : bytes) (flags vsize dsize : Z) (s : psec) (r r' : pr) : Prop := {
  ss_sec : s = {| ps_name := name; ps_flags := flags; ps_va := p_vlen r; ps_vs := vsize; ps_fo := if round_up dsize (pc_falign c) =? 0 then 0 else wrap_u 32 (p_len r); ps_fs := round_up dsize (pc_falign c) |};
  ss_len : p_len r' = p_len r + round_up dsize (pc_falign c);
  ss_vlen : p_vlen r' = round_up (p_vlen r + vsize) (pc_salign c);
  ss_bound : p_vlen r + vsize <= 2 ^ 32 - pc_salign c;
  ss_hlen : p_hlen r' = p_hlen r; ss_nt : p_nt r' = p_nt r; ss_nsec : p_nsec r' = p_nsec r;
  ss_secs : p_secs r' = p_secs r ++ [s];
  ss_cl : p_cl r' = add_if (is_code flags) (p_cl r) (round_up vsize (pc_falign c));
  ss_dl : p_dl r' = add_if (is_data flags) (p_dl r) (round_up vsize (pc_falign c));
  ss_bl : p_bl r' = add_if (is_bss flags) (p_bl r) (round_up vsize (pc_falign c));
  ss_cl_bound : u32_ok (p_cl r) -> u32_ok (p_cl r'); ss_dl_bound : u32_ok (p_dl r) -> u32_ok (p_dl r'); ss_bl_bound : u32_ok (p_bl r) -> u32_ok (p_bl r');
  ss_ca : p_ca r' = or_first (is_code flags) (p_ca r) (p_vlen r);
  ss_da : p_da r' = or_first (is_data flags || is_bss flags) (p_da r) (p_vlen r) }.
Definition c_ok (c : pcfg) : Prop := power_of_2 (pc_salign c) /\ power_of_2 (pc_falign c).
Lemma section_inv c r name flags v d s r' : c_ok c -> 0 <= p_len r -> (pc_falign c | p_len r) -> 0 <= p_vlen r -> 0 <= v -> 0 <= d ->
  p_reserve_section c r name flags v d = Ok (s, r') -> sec_step c name flags v d s r r' /\ p_dirs r' = p_dirs r /\ p_blocks r' = p_blocks r /\ p_relocs r' = p_relocs r /\ p_roff r' = p_roff r.
Proof.
  intros [Hs Hf] H0 Hd Hv Hv' Hd'. pose proof (pow2_pos _ Hs). pose proof (pow2_pos _ Hf). unfold p_reserve_section.
  destruct (p_reserve_virtual c r v) as [[va r1]| |] eqn:E1; cbn [bind]; try discriminate. apply reserve_virtual_inv in E1 as (-> & -> & HB); try assumption.
  rewrite (pow2_align 32 (pc_falign c) d) by (try assumption; lia). destruct (Z.leb_spec d (2 ^ 32 - pc_falign c)); cbn [bind]; [|discriminate].
  destruct (round_spec d (pc_falign c) ltac:(lia)) as [_ Hr]. set (fs := round_up d (pc_falign c)) in *.
  assert (E2 : forall o r2, (if negb (fs =? 0) then p_reserve (p_set_vlen r (round_up (p_vlen r + v) (pc_salign c))) fs (pc_falign c) else Ok (0, p_set_vlen r (round_up (p_vlen r + v) (pc_salign c)))) = Ok (o, r2) ->
     o = (if fs =? 0 then 0 else wrap_u 32 (p_len r)) /\ r2 = p_set_len (p_set_vlen r (round_up (p_vlen r + v) (pc_salign c))) (p_len r + fs)).
  { intros o r2. destruct (Z.eqb_spec fs 0) as [E0|N0]; cbn [negb].
    - rewrite E0. intros [= <- <-]. split; [reflexivity|]. rewrite Z.add_0_r. reflexivity.
    - intro E. apply reserve_inv in E; [|assumption|exact H0|lia]. cbv zeta in E. destruct (Z.eqb_spec fs 0); [contradiction|]. cbn [p_len p_set_vlen] in E. rewrite (round_multiple (p_len r) (pc_falign c)) in E by (try assumption; lia). destruct E as [-> ->]. split; reflexivity. }
  destruct (if negb (fs =? 0) then _ else _) as [[fo r2]| |]; cbn [bind]; try discriminate. destruct (E2 fo r2 eq_refl) as [-> ->]. clear E2.
  rewrite (pow2_align 32 (pc_falign c) v) by (try assumption; lia). destruct (Z.leb_spec v (2 ^ 32 - pc_falign c)); cbn [bind]; [|discriminate].
  destruct (round_spec v (pc_falign c) ltac:(lia)) as [_ Hr2]. set (av := round_up v (pc_falign c)) in *.
  assert (B5 : fl_has flags 32 = Z.testbit flags 5) by exact (fl_has_bit flags 5 ltac:(lia)). assert (B6 : fl_has flags 64 = Z.testbit flags 6) by exact (fl_has_bit flags 6 ltac:(lia)).
  assert (B7 : fl_has flags 128 = Z.testbit flags 7) by exact (fl_has_bit flags 7 ltac:(lia)). rewrite B5, B6, B7. clear B5 B6 B7. unfold padd.
  intro E. assert (Q : is_code flags = Z.testbit flags 5 /\ is_data flags = Z.testbit flags 6 && negb (Z.testbit flags 5) /\ is_bss flags = Z.testbit flags 7 && negb (Z.testbit flags 5) && negb (Z.testbit flags 6)) by (repeat split; reflexivity).
  destruct Q as (Qc & Qd & Qb). cbv zeta in E. cbn [p_cl p_dl p_bl p_ca p_da p_set_len p_set_vlen] in E.
  destruct (Z.testbit flags 5); cbn [negb andb] in *; [|destruct (Z.testbit flags 6); cbn [negb andb] in *; [|destruct (Z.testbit flags 7); cbn [negb andb] in *]];
  repeat match type of E with context [if ?a <? ?b then _ else _] => destruct (Z.ltb_spec a b); cbn [bind] in E; [|discriminate E] end; cbn [bind] in E;
  assert (Es : s = {| ps_name := name; ps_flags := flags; ps_va := p_vlen r; ps_vs := v; ps_fo := if fs =? 0 then 0 else wrap_u 32 (p_len r); ps_fs := fs |}) by (clear - E; congruence);
  rewrite <- Es in E; assert (Er : r' = snd (s, r')) by reflexivity; injection E as Er'; subst r';
  (split; [|repeat split]); constructor; rewrite ?Qc, ?Qd, ?Qb; cbn [p_len p_vlen p_hlen p_ca p_da p_cl p_dl p_bl p_nt p_dirs p_nsec p_secs p_blocks p_relocs p_roff p_set_len p_set_vlen p_set_code p_set_data p_set_secs add_if or_first orb]; try reflexivity; try exact Es; try exact HB; try (intros _; unfold u32_ok in *; lia); try (unfold u32_ok in *; lia); rewrite ?andb_false_r; try reflexivity; trivial.
Qed.

Lemma step_frame c n f v d s r0 r r1 r' : sec_step c n f v d s r r1 ->
  (p_len r0 = p_len r /\ p_vlen r0 = p_vlen r /\ p_hlen r0 = p_hlen r /\ p_nt r0 = p_nt r /\ p_nsec r0 = p_nsec r /\ p_secs r0 = p_secs r /\ p_cl r0 = p_cl r /\ p_dl r0 = p_dl r /\ p_bl r0 = p_bl r /\ p_ca r0 = p_ca r /\ p_da r0 = p_da r) ->
  (p_len r' = p_len r1 /\ p_vlen r' = p_vlen r1 /\ p_hlen r' = p_hlen r1 /\ p_nt r' = p_nt r1 /\ p_nsec r' = p_nsec r1 /\ p_secs r' = p_secs r1 /\ p_cl r' = p_cl r1 /\ p_dl r' = p_dl r1 /\ p_bl r' = p_bl r1 /\ p_ca r' = p_ca r1 /\ p_da r' = p_da r1) ->
  sec_step c n f v d s r0 r'.
Proof.
  intros [] (A1 & A2 & A3 & A4 & A5 & A6 & A7 & A8 & A9 & A10 & A11) (B1 & B2 & B3 & B4 & B5 & B6 & B7 & B8 & B9 & B10 & B11).
  constructor; rewrite ?A1, ?A2, ?A3, ?A4, ?A5, ?A6, ?A7, ?A8, ?A9, ?A10, ?A11, ?B1, ?B2, ?B3, ?B4, ?B5, ?B6, ?B7, ?B8, ?B9, ?B10, ?B11; assumption.
Qed.
Lemma dir_set_inv d i x d' : dir_set d i x = Ok d' -> 0 <= i < zlen d /\ d' = zset d i x.
Proof. unfold dir_set. destruct (_ && _) eqn:E; [|discriminate]. intros [= <-]. split; [lia|reflexivity]. Qed.
Lemma claim_dir_inv r i va n r' : p_claim_dir r i va n = Ok r' -> exists d, zget (p_dirs r) i = Some d /\ fst d = 0 /\ r' = p_set_dirs r (zset (p_dirs r) i (va, n)).
Proof.
  unfold p_claim_dir. destruct (zget (p_dirs r) i) as [d|] eqn:E; [|discriminate]. destruct (Z.eqb_spec (fst d) 0); cbn [negb]; [|discriminate]. unfold p_set_dir. destruct (dir_set _ _ _) as [x| |] eqn:Ed; cbn [bind]; try discriminate. apply dir_set_inv in Ed as [_ ->]. intros [= <-]. eauto.
Qed.
Definition dir_step (o : option Z) (s : psec) (r r' : pr) : Prop :=
  match o with None => p_dirs r' = p_dirs r | Some k => exists d, zget (p_dirs r) k = Some d /\ fst d = 0 /\ p_dirs r' = zset (p_dirs r) k (ps_va s, ps_vs s) end.
Definition groups_of (G : list group) (r : pr) : Prop := p_blocks r = g_blocks G /\ p_relocs r = g_relocs G.
Record item_step (c : pcfg) (G : list group) (i : pitem) (s : psec) (r r' : pr) : Prop := {
  it_sec : sec_step c (item_name i) (item_flags i) (item_vsize (g_bytes (g_pad G)) i) (zlen (item_content (g_bytes (g_pad G)) i)) s r r';
  it_dir : dir_step (item_dir i) s r r';
  it_reloc : match i with PReloc => groups_of (g_pad G) r' /\ p_roff r' = ps_fo s | _ => p_blocks r' = p_blocks r /\ p_relocs r' = p_relocs r /\ p_roff r' = p_roff r end }.
Lemma item_inv c G i s r r' : c_ok c -> item_ok i -> 0 <= p_len r -> (pc_falign c | p_len r) -> 0 <= p_vlen r -> (groups_of G r \/ groups_of (g_pad G) r) ->
  p_reserve_item c r i = Ok (s, r') -> item_step c G i s r r'.
Proof.
  intros Hc (_ & _ & _ & _ & Hv & _) H0 Hd Hv0 HG.
  assert (Plain : forall n f v d, 0 <= v -> 0 <= d -> p_reserve_section c r n f v d = Ok (s, r') -> sec_step c n f v d s r r' /\ p_dirs r' = p_dirs r /\ p_blocks r' = p_blocks r /\ p_relocs r' = p_relocs r /\ p_roff r' = p_roff r)
    by (intros; apply section_inv; assumption).
  assert (Dir : forall n f (d : bytes) k, p_reserve_dir_section c r n f (zlen d) k = Ok (s, r') -> sec_step c n f (zlen d) (zlen d) s r r' /\ dir_step (Some k) s r r' /\ p_blocks r' = p_blocks r /\ p_relocs r' = p_relocs r /\ p_roff r' = p_roff r).
  { intros n f d k. unfold p_reserve_dir_section. destruct (p_reserve_section c r n f (zlen d) (zlen d)) as [[s1 r1]| |] eqn:E; cbn [bind]; try discriminate. pose proof (zlen_nonneg d) as Hz. apply section_inv in E as (S1 & S2 & S3 & S4 & S5); try assumption.
    destruct (p_claim_dir _ _ _ _) as [r2| |] eqn:E2; cbn [bind]; try discriminate. apply claim_dir_inv in E2 as (d0 & D1 & D2 & ->). intros [= <- <-]. split; [|split; [|auto]].
    - eapply step_frame; [exact S1| |]; repeat split.
    - cbn [dir_step]. exists d0. rewrite <- S2. split; [exact D1|]. split; [exact D2|]. cbn [p_dirs p_set_dirs p_set_nt]. do 2 f_equal. rewrite (ss_sec _ _ _ _ _ _ _ _ S1). reflexivity. }
  unfold u32_ok in Hv. destruct i as [d|v d|d|v|d|d|d|d|d| |n f v d]; cbn [p_reserve_item item_vsize] in *; intro E;
  try (apply Plain in E as (S1 & S2 & S3 & S4 & S5); [constructor; [exact S1|exact S2|auto] |try apply zlen_nonneg; lia|try apply zlen_nonneg; lia]);
  try (apply Dir in E as (S1 & S2 & S3); constructor; [exact S1|exact S2|exact S3]).
  unfold p_reserve_reloc in E. destruct (p_pad_block (p_blocks r) (p_relocs r)) as [m| |] eqn:Ep; cbn [bind] in E; try discriminate.
  assert (Em : m = (g_blocks (g_pad G), g_relocs (g_pad G))).
  { destruct HG as [[B1 B2]|[B1 B2]]; rewrite B1, B2 in Ep; apply pad_block_eq in Ep; rewrite ?g_pad_pad in Ep; exact Ep. }
  subst m. cbv beta iota zeta in E. destruct (p_blocks_size _ _) as [n| |] eqn:En; cbn [bind] in E; try discriminate. apply blocks_size_eq in En. rewrite Z.add_0_l in En. subst n.
  set (R := g_bytes (g_pad G)) in *. destruct (p_reserve_dir_section _ _ _ _ _ _) as [[s1 r1]| |] eqn:E1; cbn [bind] in E; try discriminate.
  unfold p_reserve_dir_section in E1. destruct (p_reserve_section _ _ _ _ _ _) as [[s2 r2]| |] eqn:E2; cbn [bind] in E1; try discriminate. pose proof (zlen_nonneg R) as Hz. apply section_inv in E2 as (S1 & S2 & S3 & S4 & S5); try assumption.
  destruct (p_claim_dir _ _ _ _) as [r3| |] eqn:E3; cbn [bind] in E1; try discriminate. apply claim_dir_inv in E3 as (d0 & D1 & D2 & ->). injection E1 as -> <-. injection E as -> <-. constructor.
  - eapply step_frame; [exact S1| |]; repeat split.
  - cbn [dir_step item_dir]. exists d0. rewrite S2 in D1. split; [exact D1|]. split; [exact D2|]. cbn [p_dirs p_set_dirs p_set_nt p_set_roff]. rewrite S2. cbn [p_dirs p_set_relocs]. do 2 f_equal. rewrite (ss_sec _ _ _ _ _ _ _ _ S1). reflexivity.
  - split; [split; [exact S3|exact S4]|reflexivity].
Qed.
