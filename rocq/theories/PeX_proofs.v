(** Proofs about the export table of PE images. *)
From Verif Require Import Core_proofs Util_proofs File_proofs Str_proofs Map_proofs Pod_proofs Iter_proofs Ar_proofs ArSym_proofs Rel_proofs CoffW_proofs CoffI_proofs.
From Verif Require Import Pe_spec Pe_proofs.

Lemma rposition_Some b l i : rposition b l = Some i <-> exists a c, l = a ++ b :: c /\ zlen a = i /\ ~ In b c.
Proof.
  revert i. induction l as [|x l IH]; intro i; cbn [rposition].
  - split; [discriminate|]. intros ([|] & c & E & _); discriminate.
  - destruct (rposition b l) as [j|] eqn:Ej.
    + split.
      * intros [= <-]. destruct (proj1 (IH j) eq_refl) as (a & c & -> & Ha & Hc). exists (x :: a), c. split; [reflexivity|]. split; [|exact Hc]. unfold zlen in *. cbn [length]. lia.
      * intros ([|y a] & c & E & Hi & Hc); cbn [app] in E.
        -- exfalso. destruct (proj1 (IH j) eq_refl) as (a & c' & E' & _). apply Hc. assert (l = c) by congruence. subst c. rewrite E'. apply in_or_app. right. left. reflexivity.
        -- assert (El : l = a ++ b :: c) by congruence. f_equal. assert (X : Some j = Some (zlen a)) by (apply IH; exists a, c; auto). injection X as ->. unfold zlen in *. cbn [length] in Hi. lia.
    + destruct (Z.eqb_spec x b) as [->|Hx].
      * split.
        -- intros [= <-]. exists [], l. split; [reflexivity|]. split; [reflexivity|]. intro Hin. apply in_split in Hin as (a & c & E).
           assert (Hd : exists a' c', l = a' ++ b :: c' /\ ~ In b c').
           { clear - E. revert a c E. induction l as [|y l IH]; intros a c E; [destruct a; discriminate|]. destruct (in_dec Z.eq_dec b l) as [Hi|Hi].
             - apply in_split in Hi as (a1 & c1 & E1). destruct (IH a1 c1 E1) as (a' & c' & -> & Hc). exists (y :: a'), c'. auto.
             - destruct a as [|z a]; cbn [app] in E. + exists [], l. split; [cbn [app]; congruence|exact Hi]. + exfalso. apply Hi. assert (l = a ++ b :: c) as -> by congruence. apply in_or_app. right. left. reflexivity. }
           destruct Hd as (a' & c' & E' & Hc'). assert (X : @None Z = Some (zlen a')) by (apply IH; exists a', c'; auto). discriminate.
        -- intros ([|y a] & c & E & Hi & Hc); cbn [app] in E; [rewrite <- Hi; reflexivity|]. exfalso.
           assert (X : @None Z = Some (zlen a)) by (apply IH; exists a, c; split; [congruence|auto]). discriminate.
      * split; [discriminate|]. intros ([|y a] & c & E & Hi & Hc); cbn [app] in E; [congruence|]. exfalso.
        assert (X : @None Z = Some (zlen a)) by (apply IH; exists a, c; split; [congruence|auto]). discriminate.
Qed.
Lemma fold_digits_le ds r : 0 <= r -> Forall (fun d => 0 <= d < 10) ds -> r <= fold_left (fun n d => n * 10 + d) ds r.
Proof. intros Hr H. revert r Hr. induction H as [|d ds Hd H IH]; intros r Hr; cbn [fold_left]; [lia|]. specialize (IH (r * 10 + d) ltac:(lia)). lia. Qed.
Lemma ordinal_digits_iff l r v : 0 <= r < 65536 ->
  ordinal_digits l r = Some v <-> exists ds, l = map (fun d => 48 + d) ds /\ Forall (fun d => 0 <= d < 10) ds /\ v = fold_left (fun n d => n * 10 + d) ds r /\ v < 65536.
Proof.
  revert r. induction l as [|c l IH]; intros r Hr; cbn [ordinal_digits].
  - split; [intros [= <-]; exists []; repeat split; [constructor|lia]|]. intros ([|d ds] & E & _ & -> & _); [reflexivity|discriminate].
  - destruct ((48 <=? c) && (c <=? 57)) eqn:Ec.
    + unfold cmul, cadd. change (2 ^ 16) with 65536. destruct (Z.ltb_spec (r * 10) 65536).
      * destruct (Z.ltb_spec (r * 10 + (c - 48)) 65536).
        -- rewrite IH by lia. split; intros (ds & E & Hf & Hv & Hb).
           ++ exists ((c - 48) :: ds). cbn [map fold_left]. split; [f_equal; [lia|exact E]|]. split; [constructor; [lia|exact Hf]|]. split; assumption.
           ++ destruct ds as [|d ds]; [discriminate|]. cbn [map fold_left] in *. assert (d = c - 48) by (assert (48 + d = c) by congruence; lia). subst d. exists ds. split; [congruence|]. split; [exact (Forall_inv_tail Hf)|]. auto.
        -- split; [discriminate|]. intros (ds & E & Hf & Hv & Hb). exfalso. destruct ds as [|d ds]; [discriminate|]. cbn [map fold_left] in *. assert (d = c - 48) by (assert (48 + d = c) by congruence; lia). subst d.
           pose proof (fold_digits_le ds (r * 10 + (c - 48)) ltac:(lia) (Forall_inv_tail Hf)). lia.
      * split; [discriminate|]. intros (ds & E & Hf & Hv & Hb). exfalso. destruct ds as [|d ds]; [discriminate|]. cbn [map fold_left] in *. pose proof (Forall_inv Hf) as Hd. cbn beta in Hd.
        pose proof (fold_digits_le ds (r * 10 + d) ltac:(lia) (Forall_inv_tail Hf)). lia.
    + split; [discriminate|]. intros (ds & E & Hf & _). exfalso. destruct ds as [|d ds]; [discriminate|]. cbn [map] in E. pose proof (Forall_inv Hf) as Hd. cbn beta in Hd. assert (c = 48 + d) by congruence. lia.
Qed.
Lemma parse_ordinal_iff l v : parse_ordinal l = Some v <-> exists ds, l = map (fun d => 48 + d) ds /\ ds <> [] /\ Forall (fun d => 0 <= d < 10) ds /\ v = value 10 ds /\ v < 65536.
Proof.
  unfold parse_ordinal. destruct l as [|c l].
  - split; [discriminate|]. intros ([|d ds] & E & H & _); [contradiction|discriminate].
  - rewrite ordinal_digits_iff by lia. split; intros (ds & E & H); exists ds; (split; [exact E|]).
    + split; [intros ->; discriminate|exact H].
    + apply H.
Qed.
Lemma mod_u32 x : 0 <= x mod 2 ^ 32 < 2 ^ 32.
Proof. apply Z.mod_pos_bound. lia. Qed.
Lemma b_read_string_np s : fst (b_read_string s) <> Panic.
Proof. destruct (b_read_string s) as [r s'] eqn:E. apply b_read_string_spec in E as [(b & -> & _)|(-> & _)]; discriminate. Qed.
Lemma b_read_string_at_np s o : b_read_string_at s o <> Panic.
Proof. unfold b_read_string_at. destruct (b_skip s o) as [[] s'] eqn:E; [apply b_read_string_np|discriminate|]. apply b_skip_spec in E as [(? & _)|(? & _)]; discriminate. Qed.
Lemma app_sep_inv (b : Z) x y x' y' : x ++ b :: y = x' ++ b :: y' -> ~ In b y -> ~ In b y' -> x = x' /\ y = y'.
Proof.
  intros E H H'. assert (E1 : rposition b (x ++ b :: y) = Some (zlen x)) by (apply rposition_Some; eauto).
  assert (E2 : rposition b (x ++ b :: y) = Some (zlen x')) by (apply rposition_Some; rewrite E; eauto). rewrite E1 in E2. assert (El : zlen x = zlen x') by congruence.
  assert (x = x'). { apply (f_equal (ztake (zlen x))) in E. rewrite ztake_app in E. rewrite El, ztake_app in E. exact E. } subst. split; [reflexivity|]. apply app_inv_head in E. congruence.
Qed.
Lemma string_at_unique F o a b : string_at F o a -> string_at F o b -> a = b.
Proof.
  intros H1 H2. assert (0 <= o) by (destruct H1 as [H _]; apply holds_bounds in H; lia). apply string_at_iff in H1, H2; try assumption. congruence.
Qed.
Lemma target_exact t a x : target_from_address t a = Ok x <-> target_of (ex_data t) (ex_va t) a x.
Proof.
  unfold target_from_address, forward_string, target_of, wrap_u. set (S := ex_data t). set (va := ex_va t). pose proof (mod_u32 (a - va)) as Ho. set (o := (a - va) mod 2 ^ 32) in *. clearbody o.
  destruct (Z.ltb_spec o (zlen S)) as [L|L].
  2: { cbn [bind]. split; [intros [= <-]; left; auto|]. intros [[_ ->]|[L' _]]; [reflexivity|lia]. }
  destruct (b_read_string_at S o) as [s| |] eqn:Es; cbn [bind].
  - apply string_at_iff in Es; [|lia]. destruct (rposition 46 s) as [i|] eqn:Er.
    + apply rposition_Some in Er as (lib & rest & -> & <- & Hn). cbn [of_opt bind].
      unfold get_to, get_from. rewrite zlen_app, zlen_cons. pose proof (zlen_nonneg lib). pose proof (zlen_nonneg rest).
      destruct ((0 <=? zlen lib) && (zlen lib <=? zlen lib + (1 + zlen rest))) eqn:E1; [|lia]. destruct ((0 <=? zlen lib + 1) && (zlen lib + 1 <=? zlen lib + (1 + zlen rest))) eqn:E2; [|lia].
      cbn [unwrap bind]. rewrite ztake_app. change (46 :: rest) with ([46] ++ rest). rewrite app_assoc, zdrop_app_eq by (rewrite zlen_app; reflexivity).
      assert (Q : forall P : Prop, ((exists lib' rest', string_at S o (lib' ++ 46 :: rest') /\ ~ In 46 rest' /\
        ((exists c tl, rest' = c :: tl /\ c <> 35 /\ x = TName lib' rest') \/
         (exists ds, rest' = 35 :: map (fun d => 48 + d) ds /\ ds <> [] /\ Forall (fun d => 0 <= d < 10) ds /\ value 10 ds < 65536 /\ x = TOrdinal lib' (value 10 ds)))) <->
        ((exists c tl, rest = c :: tl /\ c <> 35 /\ x = TName lib rest) \/
         (exists ds, rest = 35 :: map (fun d => 48 + d) ds /\ ds <> [] /\ Forall (fun d => 0 <= d < 10) ds /\ value 10 ds < 65536 /\ x = TOrdinal lib (value 10 ds))))).
      { intros _. split.
        - intros (lib' & rest' & Hs & Hn' & Hx). pose proof (string_at_unique _ _ _ _ Es Hs) as E. apply app_sep_inv in E as [-> ->]; assumption.
        - intro Hx. exists lib, rest. auto. }
      specialize (Q True).
      assert (R : (zlen S <= o /\ x = TAddress a \/ o < zlen S /\ (exists lib' rest', string_at S o (lib' ++ 46 :: rest') /\ ~ In 46 rest' /\
        ((exists c tl, rest' = c :: tl /\ c <> 35 /\ x = TName lib' rest') \/
         (exists ds, rest' = 35 :: map (fun d => 48 + d) ds /\ ds <> [] /\ Forall (fun d => 0 <= d < 10) ds /\ value 10 ds < 65536 /\ x = TOrdinal lib' (value 10 ds))))) <->
        ((exists c tl, rest = c :: tl /\ c <> 35 /\ x = TName lib rest) \/
         (exists ds, rest = 35 :: map (fun d => 48 + d) ds /\ ds <> [] /\ Forall (fun d => 0 <= d < 10) ds /\ value 10 ds < 65536 /\ x = TOrdinal lib (value 10 ds)))).
      { rewrite Q. split; [intros [[? _]|[_ ?]]; [lia|assumption]|auto]. }
      rewrite R. clear Q R. destruct rest as [|c tl].
      * split; [discriminate|]. intros [(c & tl & E & _)|(ds & E & _)]; discriminate.
      * destruct (Z.eqb_spec c 35) as [->|Hc].
        -- destruct (parse_ordinal tl) as [v|] eqn:Ep; cbn [of_opt bind].
           ++ apply parse_ordinal_iff in Ep as (ds & -> & Hd & Hf & -> & Hv). split.
              ** intros [= <-]. right. exists ds. auto.
              ** intros [(c & tl & E & Hc & _)|(ds' & E & _ & Hf' & _ & ->)]; [congruence|]. assert (E' : map (fun d => 48 + d) ds = map (fun d => 48 + d) ds') by congruence.
                 do 2 f_equal. f_equal. clear - E'. revert ds' E'. induction ds as [|d ds IH]; intros [|d' ds'] E'; try discriminate; [reflexivity|]. cbn [map] in E'.
                 assert (48 + d = 48 + d') by congruence. f_equal; [lia|apply IH; congruence].
           ++ split; [discriminate|]. intros [(c & tl' & E & Hc & _)|(ds & E & H1 & H2 & H3 & _)]; [congruence|]. exfalso.
              assert (X : parse_ordinal tl = Some (value 10 ds)) by (apply parse_ordinal_iff; exists ds; split; [congruence|]; auto). congruence.
        -- split.
           ++ intros [= <-]. left. exists c, tl. auto.
           ++ intros [(c' & tl' & E & _ & ->)|(ds & E & _)]; [reflexivity|congruence].
    + cbn [of_opt bind]. split; [discriminate|]. intros [[? _]|(_ & lib & rest & Hs & Hn & _)]; [lia|]. exfalso. pose proof (string_at_unique _ _ _ _ Es Hs) as ->.
      assert (X : rposition 46 (lib ++ 46 :: rest) = Some (zlen lib)) by (apply rposition_Some; eauto). congruence.
  - split; [discriminate|]. intros [[? _]|(_ & lib & rest & Hs & _)]; [lia|]. exfalso. apply string_at_iff in Hs; [congruence|lia].
  - exfalso. exact (b_read_string_at_np _ _ Es).
Qed.
Lemma target_no_panic t a : target_from_address t a <> Panic.
Proof.
  unfold target_from_address, forward_string. destruct (_ <? _); [|discriminate]. pose proof (b_read_string_at_np (ex_data t) (wrap_u 32 (a - ex_va t))) as Hn. destruct (b_read_string_at (ex_data t) (wrap_u 32 (a - ex_va t))) as [s| |]; cbn [bind]; try congruence.
  destruct (rposition 46 s) as [i|] eqn:Er; cbn [of_opt bind]; [|discriminate]. apply rposition_Some in Er as (lib & rest & -> & <- & Hx).
  unfold get_to, get_from. rewrite zlen_app, zlen_cons. pose proof (zlen_nonneg lib). pose proof (zlen_nonneg rest).
  destruct ((0 <=? zlen lib) && (zlen lib <=? zlen lib + (1 + zlen rest))) eqn:E1; [|lia]. destruct ((0 <=? zlen lib + 1) && (zlen lib + 1 <=? zlen lib + (1 + zlen rest))) eqn:E2; [|lia].
  cbn [unwrap bind]. destruct (zdrop (zlen lib + 1) (lib ++ 46 :: rest)) as [|c tl]; [discriminate|]. destruct (c =? 35); [|discriminate]. destruct (parse_ordinal tl); discriminate.
Qed.

(** * The table *)
Lemma holds_le4 S o x : bytes_ok S -> 0 <= o -> o + 4 <= zlen S -> holds S o (word x) /\ u32_ok x <-> x = fld Little o 4 S.
Proof.
  intros HS Ho Hl. unfold fld. pose proof (bytes_ok_zslice o 4 S HS) as Hb. assert (Hz : zlen (zslice o 4 S) = 4) by (apply zlen_zslice; lia). split.
  - intros [H Hx]. apply holds_slice in H. rewrite zlen_word in H. rewrite H. unfold word. rewrite read_write_u_small; [reflexivity|]. exact Hx.
  - intros ->. split.
    + unfold word. replace 4%nat with (length (zslice o 4 S)) by (unfold zlen in Hz; lia). rewrite write_read_u by exact Hb. apply holds_zslice; lia.
    + pose proof (read_u_bound Little _ Hb) as B. rewrite Hz in B. exact B.
Qed.
Lemma dir_word_iff S o x : bytes_ok S -> 40 <= zlen S -> 0 <= o -> o + 4 <= 40 -> dir_word S o x <-> x = fld Little o 4 (zslice 0 40 S).
Proof.
  intros HS HL Ho Hl. unfold dir_word. rewrite holds_le4 by (first [assumption|lia]). unfold fld. rewrite zslice_zslice by lia. replace (0 + o) with o by lia. reflexivity.
Qed.
Lemma export_exact S va t : bytes_ok S -> zlen S < 2 ^ 63 ->
  export_parse S va = Ok t <->
  export_section S va (ex_base t) (ex_addresses t) (ex_names t) (ex_ordinals t) /\ ex_data t = S /\ ex_va t = va /\ ex_dir t = zslice 0 40 S.
Proof.
  intros HS HL. unfold export_parse, export_section. rewrite rr_read_at_eq by lia. destruct (Z.leb_spec (0 + 40) (zlen S)) as [H40|H40]; cbn [bind].
  2: { split; [discriminate|]. intros [(? & _) _]. lia. }
  pose proof (fun o H1 H2 x => dir_word_iff S o x HS ltac:(lia) H1 H2) as Q. set (d := zslice 0 40 S) in *.
  pose proof (mod_u32) as M. assert (Hd : forall o, 0 <= o -> o + 4 <= 40 -> u32_ok (fld Little o 4 d)).
  { intros o H1 H2. apply (proj2 (Q o H1 H2 _) eq_refl). }
  destruct (Z.ltb_spec (fld Little 16 4 d) (2 ^ 16)) as [Hb|Hb]; cbn [negb].
  2: { split; [discriminate|]. intros [(_ & Hx & Hx' & _) _]. apply Q in Hx; lia. }
  assert (W4 : forall o k l, 0 <= o -> 0 <= k -> (exists cs, b_read_slice_at S o 4 k = Ok cs /\ l = map (read_u Little) cs) <-> holds S o (u32s l) /\ Forall u32_ok l /\ zlen l = k).
  { intros. apply (words_at_iff S o 4); try assumption; lia. }
  assert (W2 : forall o k l, 0 <= o -> 0 <= k -> (exists cs, b_read_slice_at S o 2 k = Ok cs /\ l = map (read_u Little) cs) <-> holds S o (u16s l) /\ Forall u16_ok l /\ zlen l = k).
  { intros. apply (words_at_iff S o 2); try assumption; lia. }
  pose proof (Hd 16 ltac:(lia) ltac:(lia)) as B16. pose proof (Hd 20 ltac:(lia) ltac:(lia)) as B20. pose proof (Hd 24 ltac:(lia) ltac:(lia)) as B24. unfold u32_ok in B16, B20, B24.
  assert (A : forall l, (if fld Little 28 4 d =? 0 then Ok [] else m <- psub 65535 (fld Little 16 4 d) ;; if m + 1 <? fld Little 20 4 d then Err else
     l <- b_read_slice_at S (wrap_u 32 (fld Little 28 4 d - va)) 4 (fld Little 20 4 d) ;; Ok (map (read_u Little) l)) = Ok l <->
     Forall u32_ok l /\ (exists p, dir_word S 28 p /\ ((p = 0 /\ l = []) \/ (p <> 0 /\ dir_word S 20 (zlen l) /\ fld Little 16 4 d + zlen l <= 65536 /\ array_at S va p (u32s l))))).
  { intro l. destruct (Z.eqb_spec (fld Little 28 4 d) 0) as [E0|E0].
    - split.
      + intros [= <-]. split; [constructor|]. exists 0. split; [apply Q; lia|]. auto.
      + intros (_ & p & Hp & [[_ ->]|(Hp' & _)]); [reflexivity|]. apply Q in Hp; lia.
    - unfold psub. destruct (Z.leb_spec (fld Little 16 4 d) 65535); [|lia]. cbn [bind]. unfold array_at. fold (wrap_u 32 (fld Little 28 4 d - va)).
      pose proof (M (fld Little 28 4 d - va)) as Mo. fold (wrap_u 32 (fld Little 28 4 d - va)) in Mo.
      destruct (Z.ltb_spec (65535 - fld Little 16 4 d + 1) (fld Little 20 4 d)) as [L|L].
      + split; [discriminate|]. intros (_ & p & Hp & [[-> _]|(Hp' & Hn & Hle & _)]); [apply Q in Hp; lia|]. apply Q in Hn; lia.
      + split.
        * intro E. destruct (b_read_slice_at S (wrap_u 32 (fld Little 28 4 d - va)) 4 (fld Little 20 4 d)) as [cs| |] eqn:Ec; try discriminate. cbn [bind] in E.
          destruct (proj1 (W4 (wrap_u 32 (fld Little 28 4 d - va)) (fld Little 20 4 d) l ltac:(lia) ltac:(lia))) as (Hh & Hf & Hz).
          { exists cs. split; [exact Ec|congruence]. }
          split; [exact Hf|]. exists (fld Little 28 4 d). split; [apply Q; lia|]. right. split; [exact E0|]. split; [apply Q; lia|]. split; [lia|exact Hh].
        * intros (Hf & p & Hp & [[-> _]|(Hp' & Hn & Hle & Hh)]); [apply Q in Hp; lia|]. apply Q in Hp; try lia. apply Q in Hn; try lia. subst p.
          destruct (proj2 (W4 (wrap_u 32 (fld Little 28 4 d - va)) (fld Little 20 4 d) l ltac:(lia) ltac:(lia))) as (cs & Ec & ->); [auto|]. rewrite Ec. reflexivity. }
  assert (N : forall l m, (if fld Little 32 4 d =? 0 then Ok ([], []) else if fld Little 36 4 d =? 0 then Err else
     l <- b_read_slice_at S (wrap_u 32 (fld Little 32 4 d - va)) 4 (fld Little 24 4 d) ;; m <- b_read_slice_at S (wrap_u 32 (fld Little 36 4 d - va)) 2 (fld Little 24 4 d) ;;
     Ok (map (read_u Little) l, map (read_u Little) m)) = Ok (l, m) <->
     Forall u32_ok l /\ Forall u16_ok m /\ (exists p q, dir_word S 32 p /\ dir_word S 36 q /\ ((p = 0 /\ l = [] /\ m = []) \/
       (p <> 0 /\ q <> 0 /\ zlen m = zlen l /\ dir_word S 24 (zlen l) /\ array_at S va p (u32s l) /\ array_at S va q (u16s m))))).
  { intros l m. destruct (Z.eqb_spec (fld Little 32 4 d) 0) as [E0|E0].
    - split.
      + intros [= <- <-]. do 2 (split; [constructor|]). exists 0, (fld Little 36 4 d). do 2 (split; [apply Q; lia|]). auto.
      + intros (_ & _ & p & q & Hp & Hq & [(_ & -> & ->)|(Hp' & _)]); [reflexivity|]. apply Q in Hp; lia.
    - destruct (Z.eqb_spec (fld Little 36 4 d) 0) as [E1|E1].
      + split; [discriminate|]. intros (_ & _ & p & q & Hp & Hq & [(-> & _)|(_ & Hq' & _)]); [apply Q in Hp; lia|apply Q in Hq; lia].
      + unfold array_at. pose proof (M (fld Little 32 4 d - va)) as Mp. pose proof (M (fld Little 36 4 d - va)) as Mq.
        split.
        * intro E. unfold wrap_u in E. destruct (b_read_slice_at S ((fld Little 32 4 d - va) mod 2 ^ 32) 4 (fld Little 24 4 d)) as [cs| |] eqn:Ec; try discriminate. cbn [bind] in E.
          destruct (b_read_slice_at S ((fld Little 36 4 d - va) mod 2 ^ 32) 2 (fld Little 24 4 d)) as [cs'| |] eqn:Ec'; try discriminate. cbn [bind] in E.
          destruct (proj1 (W4 _ (fld Little 24 4 d) l (proj1 Mp) ltac:(lia))) as (Hh & Hf & Hz). { exists cs. split; [exact Ec|congruence]. }
          destruct (proj1 (W2 _ (fld Little 24 4 d) m (proj1 Mq) ltac:(lia))) as (Hh' & Hf' & Hz'). { exists cs'. split; [exact Ec'|congruence]. }
          do 2 (split; [assumption|]). exists (fld Little 32 4 d), (fld Little 36 4 d). do 2 (split; [apply Q; lia|]). right. do 2 (split; [assumption|]). split; [lia|]. split; [apply Q; lia|]. auto.
        * intros (Hf & Hf' & p & q & Hp & Hq & [(-> & _)|(Hp' & Hq' & Hz & Hn & Hh & Hh')]); [apply Q in Hp; lia|]. apply Q in Hp; try lia. apply Q in Hq; try lia. apply Q in Hn; try lia. subst p q.
          unfold wrap_u.
          destruct (proj2 (W4 _ (fld Little 24 4 d) l (proj1 Mp) ltac:(lia))) as (cs & Ec & ->); [auto|].
          destruct (proj2 (W2 _ (fld Little 24 4 d) m (proj1 Mq) ltac:(lia))) as (cs' & Ec' & ->); [split; [exact Hh'|]; split; [exact Hf'|lia]|]. rewrite Ec. cbn [bind]. rewrite Ec'. reflexivity. }
  set (ea := if fld Little 28 4 d =? 0 then Ok [] else _) in *. set (en := if fld Little 32 4 d =? 0 then Ok ([], []) else _) in *. clearbody ea en.
  split.
  - intro E. destruct ea as [l| |]; try discriminate. cbn [bind] in E. destruct en as [[nl ol]| |]; try discriminate. cbn [bind] in E. injection E as <-. cbn [ex_base ex_addresses ex_names ex_ordinals ex_data ex_va ex_dir].
    destruct (proj1 (A l) eq_refl) as [A1 A2]. destruct (proj1 (N nl ol) eq_refl) as (N1 & N2 & N3). split; [|auto]. split; [lia|]. split; [apply Q; lia|]. split; [lia|]. auto.
  - destruct t as [td tv tdir tb ta tn ti]. cbn [ex_base ex_addresses ex_names ex_ordinals ex_data ex_va ex_dir].
    intros [(_ & Hx & Hx' & Ha & Hn & Hi & HA & HN) (-> & -> & ->)]. apply Q in Hx; try lia. subst tb. rewrite (proj2 (A ta)) by auto. cbn [bind]. rewrite (proj2 (N tn ti)) by auto. reflexivity.
Qed.
Lemma export_no_panic S va : bytes_ok S -> zlen S < 2 ^ 63 -> export_parse S va <> Panic.
Proof.
  intros HS HL. unfold export_parse. rewrite rr_read_at_eq by lia. destruct (0 + 40 <=? zlen S); cbn [bind]; [|discriminate].
  destruct (Z.ltb_spec (fld Little 16 4 (zslice 0 40 S)) (2 ^ 16)); cbn [negb]; [|discriminate].
  assert (X : (if fld Little 28 4 (zslice 0 40 S) =? 0 then Ok [] else m <- psub 65535 (fld Little 16 4 (zslice 0 40 S)) ;; if m + 1 <? fld Little 20 4 (zslice 0 40 S) then Err else
     l <- b_read_slice_at S (wrap_u 32 (fld Little 28 4 (zslice 0 40 S) - va)) 4 (fld Little 20 4 (zslice 0 40 S)) ;; Ok (map (read_u Little) l)) <> Panic).
  { destruct (_ =? 0); [discriminate|]. unfold psub. destruct (Z.leb_spec (fld Little 16 4 (zslice 0 40 S)) 65535); [|lia]. cbn [bind]. destruct (_ <? _); [discriminate|].
    pose proof (slice_at_np S (wrap_u 32 (fld Little 28 4 (zslice 0 40 S) - va)) 4 (fld Little 20 4 (zslice 0 40 S))) as P. destruct (b_read_slice_at _ _ _ _); cbn [bind]; congruence. }
  set (ea := if fld Little 28 4 _ =? 0 then Ok [] else _) in *. clearbody ea. destruct ea as [l| |]; cbn [bind]; try congruence.
  destruct (_ =? 0); cbn [bind]; [discriminate|]. destruct (_ =? 0); cbn [bind]; [discriminate|].
  match goal with |- context [b_read_slice_at S ?o 4 ?n] => pose proof (slice_at_np S o 4 n) as P4; destruct (b_read_slice_at S o 4 n); cbn [bind]; try congruence end.
  match goal with |- context [b_read_slice_at S ?o 2 ?n] => pose proof (slice_at_np S o 2 n) as P2; destruct (b_read_slice_at S o 2 n); cbn [bind]; congruence end.
Qed.

(** * Ordinals *)
Definition tab_ok (t : exptab) : Prop := u16_ok (ex_base t) /\ (ex_base t + zlen (ex_addresses t) <= 65536) /\ zlen (ex_names t) = zlen (ex_ordinals t) /\ Forall u16_ok (ex_ordinals t).
Lemma export_tab_ok S va t : bytes_ok S -> zlen S < 2 ^ 63 -> export_parse S va = Ok t -> tab_ok t /\ ex_data t = S /\ ex_va t = va.
Proof.
  intros HS HL E. apply export_exact in E as [(_ & Hb & Hb' & Ha & Hn & Hi & (p & _ & HA) & (q & r & _ & _ & HN)) (E1 & E2 & _)]; try assumption.
  split; [|auto]. unfold tab_ok. destruct Hb as [_ Hb]. unfold u32_ok in Hb. split; [unfold u16_ok; lia|]. split; [destruct HA as [[_ ->]|(_ & _ & ? & _)]; [change (zlen (@nil Z)) with 0|]; lia|].
  split; [|exact Hi]. destruct HN as [(_ & -> & ->)|(_ & _ & ? & _)]; [reflexivity|congruence].
Qed.
Lemma ordinal_from_index_iff t i o : tab_ok t -> 0 <= i -> ordinal_from_index t i = Ok o <-> i < zlen (ex_addresses t) /\ o = ex_base t + i.
Proof.
  intros (Hb & Hn & _) Hi. unfold ordinal_from_index, padd, u16_ok in *. destruct (Z.leb_spec (zlen (ex_addresses t)) i); [split; [discriminate|lia]|].
  destruct (Z.ltb_spec (ex_base t + i) (2 ^ 16)); [|lia]. split; [intros [= <-]; auto|intros [_ ->]; reflexivity].
Qed.
Lemma ordinal_from_index_np t i : tab_ok t -> 0 <= i -> ordinal_from_index t i <> Panic.
Proof.
  intros (Hb & Hn & _) Hi. unfold ordinal_from_index, padd, u16_ok in *. destruct (Z.leb_spec (zlen (ex_addresses t)) i); [discriminate|]. destruct (Z.ltb_spec (ex_base t + i) (2 ^ 16)); [discriminate|lia].
Qed.
Lemma index_from_ordinal_iff t o i : tab_ok t -> u16_ok o -> index_from_ordinal t o = Ok i <-> 0 <= i < zlen (ex_addresses t) /\ o = ex_base t + i.
Proof.
  intros (Hb & Hn & _) Ho. unfold index_from_ordinal, wrap_u, u16_ok in *. destruct (Z.leb_spec (zlen (ex_addresses t)) ((o - ex_base t) mod 2 ^ 16)) as [L|L].
  - split; [discriminate|]. intros [Hi ->]. rewrite Z.mod_small in L by lia. lia.
  - split.
    + intros [= <-]. pose proof (Z.mod_pos_bound (o - ex_base t) (2 ^ 16) ltac:(lia)). split; [lia|]. pose proof (Z.mod_eq (o - ex_base t) (2 ^ 16) ltac:(lia)).
      destruct (Z.leb_spec (ex_base t) o); [rewrite Z.mod_small by lia; lia|]. exfalso.
      assert (Em : (o - ex_base t) mod 2 ^ 16 = o - ex_base t + 2 ^ 16) by (symmetry; apply Zmod_unique with (q := -1); lia). lia.
    + intros [Hi ->]. rewrite Z.mod_small by lia. f_equal. lia.
Qed.
Fixpoint numbered (base i : Z) (l : list Z) : list (Z * Z * Z) := match l with [] => [] | a :: l => (i, base + i, a) :: numbered base (i + 1) l end.
Lemma zlen_numbered base i l : zlen (numbered base i l) = zlen l.
Proof. revert i. induction l as [|a l IH]; intro i; cbn [numbered]; [reflexivity|]. rewrite !zlen_cons, IH. reflexivity. Qed.
Lemma zget_numbered base i l j a : zget l j = Some a -> zget (numbered base i l) j = Some (i + j, base + i + j, a).
Proof.
  revert i j. induction l as [|x l IH]; intros i j H; [apply zget_In in H; destruct H|]. cbn [numbered]. pose proof (zget_Some_lt _ _ _ H). destruct (Z.eq_dec j 0) as [->|Hj].
  - rewrite zget_0 in H. rewrite zget_0. replace (i + 0) with i by lia. replace (base + i + 0) with (base + i) by lia. congruence.
  - rewrite zget_S in H by lia. rewrite zget_S by lia. rewrite (IH _ _ H). replace (i + 1 + (j - 1)) with (i + j) by lia. replace (base + (i + 1) + (j - 1)) with (base + i + j) by lia. reflexivity.
Qed.
Lemma address_iter_eq base i l : 0 <= base -> 0 <= i -> base + i + zlen l <= 65536 -> address_iter base i l = Ok (numbered base i l).
Proof.
  intro Hb. revert i. induction l as [|a l IH]; intros i Hi H; cbn [address_iter]; [reflexivity|]. rewrite zlen_cons in H. pose proof (zlen_nonneg l).
  rewrite wrap_u_id by lia. unfold padd. destruct (Z.ltb_spec (base + i) (2 ^ 16)); [|lia]. cbn [bind]. rewrite IH by lia. reflexivity.
Qed.

(** * The list of all exports *)
Lemma exports_targets_iff t l r : exports_targets t l = Ok r <->
  Forall2 (fun '(_, o, a) x => pe_ordinal x = o /\ pe_name x = None /\ target_of (ex_data t) (ex_va t) a (pe_target x)) l r.
Proof.
  revert r. induction l as [|[[j o] a] l IH]; intro r; cbn [exports_targets].
  - split; [intros [= <-]; constructor|]. intro H. inversion H. reflexivity.
  - split.
    + intro E. destruct (target_from_address t a) as [x| |] eqn:Ex; try discriminate. cbn [bind] in E. destruct (exports_targets t l) as [r'| |]; try discriminate. cbn [bind] in E. injection E as <-.
      constructor; [|apply IH; reflexivity]. split; [reflexivity|]. split; [reflexivity|]. apply target_exact. exact Ex.
    + intro H. inversion H as [|? x ? r' Hx Hr]; subst. cbn beta iota in Hx. destruct Hx as (Ho & Hn & Ht). apply target_exact in Ht. rewrite Ht. cbn [bind]. apply IH in Hr. rewrite Hr. cbn [bind]. destruct x; cbn in *. congruence.
Qed.
Lemma exports_targets_np t l : exports_targets t l <> Panic.
Proof.
  induction l as [|[[j o] a] l IH]; cbn [exports_targets]; [discriminate|]. pose proof (target_no_panic t a). destruct (target_from_address t a); cbn [bind]; try congruence. destruct (exports_targets t l); cbn [bind]; congruence.
Qed.
Lemma zlen_set_at {A} (l : list A) i f : zlen (set_at l i f) = zlen l.
Proof. revert i. induction l as [|x l IH]; intros [|i]; cbn [set_at]; try reflexivity. rewrite !zlen_cons, IH. reflexivity. Qed.
Lemma zget_neg {A} (l : list A) j : j < 0 -> zget l j = None.
Proof. intro H. unfold zget. destruct (Z.leb_spec 0 j); [lia|reflexivity]. Qed.
Lemma zget_nil {A} j : zget (@nil A) j = None.
Proof. destruct (zget (@nil A) j) eqn:E; [apply zget_In in E; destruct E|reflexivity]. Qed.
Lemma zget_set_at {A} (l : list A) i j f : 0 <= i -> zget (set_at l (Z.to_nat i) f) j = if j =? i then option_map f (zget l j) else zget l j.
Proof.
  intro Hi. remember (Z.to_nat i) as k eqn:Ek. revert k i j Hi Ek. induction l as [|x l IH]; intros k i j Hi Ek.
  - destruct k; cbn [set_at]; rewrite zget_nil; destruct (j =? i); reflexivity.
  - destruct (Z.ltb_spec j 0); [rewrite !zget_neg by lia; destruct (j =? i); reflexivity|].
    destruct k as [|k]; cbn [set_at].
    + assert (i = 0) by lia. subst i. destruct (Z.eqb_spec j 0) as [->|Hj]; [rewrite !zget_0; reflexivity|]. rewrite !zget_S by lia. reflexivity.
    + destruct (Z.eq_dec j 0) as [->|Hj]; [rewrite !zget_0; destruct (Z.eqb_spec 0 i); [lia|reflexivity]|]. rewrite !zget_S by lia. rewrite (IH k (i - 1) (j - 1)) by lia.
      destruct (Z.eqb_spec (j - 1) (i - 1)), (Z.eqb_spec j i); try lia; reflexivity.
Qed.
Definition upd (t : exptab) (l : list (Z * Z)) (i : Z) (x x' : pexport) : Prop :=
  pe_ordinal x' = pe_ordinal x /\ pe_target x' = pe_target x /\
  ((pe_name x' = pe_name x /\ ~ In i (map snd l)) \/ (exists n, pe_name x' = Some n /\ last_name (ex_data t) (ex_va t) l i (Some n))).
Lemma name_from_pointer_iff t p n : name_from_pointer t p = Ok n <-> string_at (ex_data t) ((p - ex_va t) mod 2 ^ 32) n.
Proof. unfold name_from_pointer. apply string_at_iff. apply mod_u32. Qed.
Lemma exports_names_fwd t l r r' : (forall p i, In (p, i) l -> 0 <= i) -> exports_names t l r = Ok r' ->
  zlen r' = zlen r /\ (forall p i, In (p, i) l -> 0 <= i < zlen r /\ exists n, string_at (ex_data t) ((p - ex_va t) mod 2 ^ 32) n) /\
  forall i x, zget r i = Some x -> exists x', zget r' i = Some x' /\ upd t l i x x'.
Proof.
  revert r. induction l as [|[p i] l IH]; intros r Hp; cbn [exports_names].
  - intros [= <-]. split; [reflexivity|]. split; [intros p i []|]. intros i x Hx. exists x. split; [exact Hx|]. split; [reflexivity|]. split; [reflexivity|]. left. auto.
  - intro E. destruct (name_from_pointer t p) as [n| |] eqn:En; try discriminate. cbn [bind] in E. destruct (zget r i) as [y|] eqn:Ey; try discriminate. cbn [bind of_opt] in E.
    apply IH in E as (Hl & Hn & Hx); [|intros; eapply Hp; right; eauto]. rewrite zlen_set_at in Hl, Hn. apply name_from_pointer_iff in En. split; [exact Hl|]. split.
    + intros q j [[= <- <-]|Hin]; [|apply Hn; exact Hin]. apply zget_Some_lt in Ey. split; [lia|eauto].
    + intros j x Hj. assert (Hi : 0 <= i) by (eapply Hp; left; reflexivity). specialize (Hx j). rewrite zget_set_at in Hx by exact Hi. rewrite Hj in Hx. destruct (Z.eqb_spec j i) as [->|Hne]; cbn [option_map] in Hx.
      * destruct (Hx _ eq_refl) as (x' & Hx' & Ho & Ht & Hnm). cbn in *. exists x'. split; [exact Hx'|]. split; [exact Ho|]. split; [exact Ht|]. right. destruct Hnm as [[Hnm Hni]|(m & Hm & a & q & c & -> & Hc & Hs)].
        -- exists n. split; [exact Hnm|]. exists [], p, l. auto.
        -- exists m. split; [exact Hm|]. exists ((p, i) :: a), q, c. auto.
      * destruct (Hx _ eq_refl) as (x' & Hx' & Ho & Ht & Hnm). exists x'. split; [exact Hx'|]. split; [exact Ho|]. split; [exact Ht|]. destruct Hnm as [[Hnm Hni]|(m & Hm & a & q & c & -> & Hc & Hs)].
        -- left. split; [exact Hnm|]. cbn. intros [E|E]; [congruence|contradiction].
        -- right. exists m. split; [exact Hm|]. exists ((p, i) :: a), q, c. auto.
Qed.
Lemma exports_names_total t l r : (forall p i, In (p, i) l -> 0 <= i < zlen r /\ exists n, string_at (ex_data t) ((p - ex_va t) mod 2 ^ 32) n) -> exists r', exports_names t l r = Ok r'.
Proof.
  revert r. induction l as [|[p i] l IH]; intros r Hp; cbn [exports_names]; [eauto|]. destruct (Hp p i (or_introl eq_refl)) as [Hi (n & Hn)]. apply name_from_pointer_iff in Hn. rewrite Hn. cbn [bind].
  destruct (zget_lt_Some r i ltac:(lia)) as (y & Hy). rewrite Hy. cbn [bind of_opt]. apply IH. rewrite zlen_set_at. intros. apply Hp. right. assumption.
Qed.
Lemma exports_names_np t l r : exports_names t l r <> Panic.
Proof.
  revert r. induction l as [|[p i] l IH]; intro r; cbn [exports_names]; [discriminate|]. pose proof (b_read_string_at_np (ex_data t) (wrap_u 32 (p - ex_va t))). unfold name_from_pointer. destruct (b_read_string_at _ _); cbn [bind]; try congruence. destruct (zget r i); cbn [bind of_opt]; [apply IH|discriminate].
Qed.
Lemma last_split_unique {A} (i : Z) a (p : A) c a' p' c' : a ++ (p, i) :: c = a' ++ (p', i) :: c' -> ~ In i (map snd c) -> ~ In i (map snd c') -> p = p'.
Proof.
  revert a'. induction a as [|x a IH]; intros [|x' a'] E H H'; cbn [app] in E.
  - congruence.
  - exfalso. assert (Ec : c = a' ++ (p', i) :: c') by congruence. subst c. apply H. rewrite map_app. apply in_or_app. right. left. reflexivity.
  - exfalso. assert (Ec : c' = a ++ (p, i) :: c) by congruence. subst c'. apply H'. rewrite map_app. apply in_or_app. right. left. reflexivity.
  - apply IH with (a' := a'); try assumption. congruence.
Qed.
Lemma last_name_unique S va l i n n' : last_name S va l i n -> last_name S va l i n' -> n = n'.
Proof.
  destruct n as [n|], n' as [n'|]; cbn [last_name]; [| | |reflexivity].
  - intros (a & p & c & -> & Hc & Hs) (a' & p' & c' & E & Hc' & Hs'). pose proof (last_split_unique _ _ _ _ _ _ _ E Hc Hc') as <-. f_equal. eapply string_at_unique; eassumption.
  - intros (a & p & c & -> & Hc & Hs) Hn. exfalso. apply Hn. rewrite map_app. apply in_or_app. right. left. reflexivity.
  - intros Hn (a & p & c & -> & Hc & Hs). exfalso. apply Hn. rewrite map_app. apply in_or_app. right. left. reflexivity.
Qed.
Lemma target_unique t a x y : target_of (ex_data t) (ex_va t) a x -> target_of (ex_data t) (ex_va t) a y -> x = y.
Proof. intros H1 H2. apply target_exact in H1, H2. congruence. Qed.
Lemma zget_ext_in {A} (l l' : list A) : zlen l = zlen l' -> (forall i x y, zget l i = Some x -> zget l' i = Some y -> x = y) -> l = l'.
Proof.
  intros Hl H. apply zget_ext'. intro i. destruct (zget l i) as [x|] eqn:E1.
  - pose proof (zget_Some_lt _ _ _ E1). destruct (zget_lt_Some l' i ltac:(lia)) as (y & E2). rewrite E2. f_equal. eauto.
  - destruct (zget l' i) as [y|] eqn:E2; [|reflexivity]. pose proof (zget_Some_lt _ _ _ E2). destruct (zget_lt_Some l i ltac:(lia)) as (x & E). congruence.
Qed.
Lemma exports_exact t l : tab_ok t -> pe_exports t = Ok l <-> export_list (ex_data t) (ex_va t) (ex_base t) (ex_addresses t) (ex_names t) (ex_ordinals t) l.
Proof.
  intros (Hb & Hn & Hl & Hi). unfold u16_ok in Hb. unfold pe_exports. rewrite address_iter_eq by lia. cbn [bind].
  set (L := numbered _ _ _).
  assert (HL : zlen L = zlen (ex_addresses t)). { apply zlen_numbered. }
  assert (HG : forall i a, zget (ex_addresses t) i = Some a -> zget L i = Some (i, ex_base t + i, a)).
  { intros i a H. pose proof (zget_Some_lt _ _ _ H) as Hlt. unfold L. rewrite (zget_numbered _ _ _ _ _ H). replace (0 + i) with i by lia. replace (ex_base t + 0 + i) with (ex_base t + i) by lia. reflexivity. }
  assert (Hcomb : forall p i, In (p, i) (combine (ex_names t) (ex_ordinals t)) -> 0 <= i).
  { intros p i H. apply in_combine_r in H. rewrite Forall_forall in Hi. apply Hi in H. unfold u16_ok in H. lia. }
  assert (Hfwd : forall l, (r <- exports_targets t L ;; exports_names t (combine (ex_names t) (ex_ordinals t)) r) = Ok l -> export_list (ex_data t) (ex_va t) (ex_base t) (ex_addresses t) (ex_names t) (ex_ordinals t) l).
  { clear l. intros l E. destruct (exports_targets t L) as [r| |] eqn:Er; try discriminate. cbn [bind] in E. apply exports_targets_iff in Er. pose proof (Forall2_zlen _ _ _ Er) as Hz. apply exports_names_fwd in E as (El & En & Ex); [|exact Hcomb].
    split; [lia|]. split; [intros p i Hin; rewrite <- HL, <- Hz; apply En; exact Hin|]. intros i x' Hx'. pose proof (zget_Some_lt _ _ _ Hx') as Hlt. destruct (zget_lt_Some r i ltac:(lia)) as (x & Hx).
    destruct (Ex i x Hx) as (x'' & Hx'' & Ho & Ht & Hnm). assert (x'' = x') by congruence. subst x''.
    destruct (zget_lt_Some (ex_addresses t) i ltac:(lia)) as (a & Ha). pose proof (HG i a Ha) as Hg. destruct (Forall2_zget_l _ _ _ _ _ Er Hg) as (y & Hy & Hyo & Hyn & Hyt). assert (y = x) by congruence. subst y.
    split; [congruence|]. split; [exists a; split; [exact Ha|rewrite Ht; exact Hyt]|]. destruct Hnm as [[Hnm Hni]|(n & Hnm & Hlast)]; [rewrite Hnm, Hyn; exact Hni|rewrite Hnm; exact Hlast]. }
  split; [apply Hfwd|]. intros (Hz & Hnames & Hx).
  assert (Hr : exists r, exports_targets t L = Ok r).
  { assert (Hr : Forall (fun '(_, _, a) => exists x, target_of (ex_data t) (ex_va t) a x) L).
    { rewrite Forall_forall. intros [[j o] a] Hin. apply In_zget in Hin as (i & Hg). pose proof (zget_Some_lt _ _ _ Hg) as Hlt. destruct (zget_lt_Some l i ltac:(lia)) as (x & Hxl). destruct (Hx i x Hxl) as (_ & (a' & Ha' & Ht) & _).
      apply HG in Ha'. assert (a = a') by congruence. subst a'. eauto. }
    clear - Hr. induction Hr as [|[[j o] a] L [x Hx] HF IH]; cbn [exports_targets]; [eauto|]. apply target_exact in Hx. rewrite Hx. cbn [bind]. destruct IH as (r & ->). cbn [bind]. eauto. }
  destruct Hr as (r & Er). rewrite Er. cbn [bind]. pose proof (proj1 (exports_targets_iff _ _ _) Er) as HF. pose proof (Forall2_zlen _ _ _ HF) as Hzr.
  destruct (exports_names_total t (combine (ex_names t) (ex_ordinals t)) r) as (l' & El'). { rewrite Hzr, HL. exact Hnames. }
  rewrite El'. f_equal. assert (Hl' : export_list (ex_data t) (ex_va t) (ex_base t) (ex_addresses t) (ex_names t) (ex_ordinals t) l') by (apply Hfwd; rewrite Er; exact El').
  destruct Hl' as (Hz' & _ & Hx'). apply zget_ext_in; [congruence|]. intros i x y Hxi Hyi. destruct (Hx' i x Hxi) as (O1 & (a1 & A1 & T1) & N1). destruct (Hx i y Hyi) as (O2 & (a2 & A2 & T2) & N2).
  assert (a1 = a2) by congruence. subst a2. pose proof (target_unique _ _ _ _ T1 T2). pose proof (last_name_unique _ _ _ _ _ _ N1 N2). destruct x, y; cbn in *. congruence.
Qed.
Lemma exports_np t : tab_ok t -> pe_exports t <> Panic.
Proof.
  intros (Hb & Hn & _). unfold u16_ok in Hb. unfold pe_exports. rewrite address_iter_eq by lia. cbn [bind]. pose proof (exports_targets_np t (numbered (ex_base t) 0 (ex_addresses t))) as P.
  destruct (exports_targets _ _); cbn [bind]; try congruence. apply exports_names_np.
Qed.

(** * The iterator *)
Lemma results_same {S A} (next : S -> out (option A) * S) st st' L : next st = next st' -> results next st' L -> results next st L.
Proof. intros E H. inversion H; subst; [eapply res_end|eapply res_ok|eapply res_err]; try (rewrite E; eassumption); eassumption. Qed.
Lemma results_step {S A} (next : S -> out (option A) * S) st st' m L (P : A -> Prop) : next st = (m, st') -> m <> Panic -> m <> Ok None -> (forall x, m = Ok (Some x) <-> P x) ->
  results next st' L -> exists r, outcome P r /\ results next st (r :: L).
Proof.
  intros E H1 H2 HP HL. destruct m as [[x|]| |]; try contradiction.
  - exists (Some x). split; [apply HP; reflexivity|]. eapply res_ok; eassumption.
  - exists None. split; [intros x Hx; apply HP in Hx; discriminate|]. eapply res_err; eassumption.
Qed.
Definition ibased (image : Z) (t : etarget) : etarget := match t with TAddress a => TAddress ((image + a) mod 2 ^ 64) | t => t end.
Lemma mk_export_iff image t a o n x : mk_export image t a o n = Ok (Some x) <->
  exists tg, target_of (ex_data t) (ex_va t) a tg /\ x = {| rx_name := n; rx_target := ibased image tg; rx_ordinal := o |}.
Proof.
  unfold mk_export. split.
  - intro E. destruct (target_from_address t a) as [tg| |] eqn:Et; try discriminate. cbn [bind] in E. apply target_exact in Et. exists tg. split; [exact Et|]. destruct tg; cbn [ibased] in *; unfold wrap_u in E; congruence.
  - intros (tg & Ht & ->). apply target_exact in Ht. rewrite Ht. cbn [bind]. destruct tg; reflexivity.
Qed.
Lemma mk_export_np image t a o n : mk_export image t a o n <> Panic /\ mk_export image t a o n <> Ok None.
Proof. unfold mk_export. pose proof (target_no_panic t a). destruct (target_from_address t a); cbn [bind]; split; congruence. Qed.
Lemma unnamed_results image t : tab_ok t -> forall l pre seen, ex_addresses t = pre ++ l ->
  (forall i, 0 <= i < zlen (ex_addresses t) -> zget seen i = Some (existsb (fun j => j =? i) (ex_ordinals t))) ->
  exists L, Forall2 (fun '(i, a) => outcome (export_unnamed (ex_data t) (ex_va t) image (ex_base t) i a)) (unnamed (ex_ordinals t) (zlen pre) l) L /\
    results (expit_next image t) {| ei_index := zlen pre; ei_addresses := true; ei_seen := seen |} L.
Proof.
  intros Ht l. induction l as [|a l IH]; intros pre seen E Hs; cbn [unnamed].
  - exists []. split; [constructor|]. eapply res_end. unfold expit_next. cbn [ei_addresses negb ei_index ei_seen]. rewrite E, app_nil_r. rewrite zdrop_all by lia. reflexivity.
  - assert (E' : ex_addresses t = (pre ++ [a]) ++ l) by (rewrite <- app_assoc; exact E). destruct (IH (pre ++ [a]) seen E' Hs) as (L & HL & HR). rewrite zlen_app in HL, HR. change (zlen [a]) with 1 in HL, HR.
    assert (Hlt : 0 <= zlen pre < zlen (ex_addresses t)). { rewrite E, zlen_app, zlen_cons. pose proof (zlen_nonneg pre). pose proof (zlen_nonneg l). lia. }
    pose proof (Hs (zlen pre) Hlt) as Hz.
    assert (Ed : zdrop (zlen pre) (ex_addresses t) = a :: l) by (rewrite E; apply zdrop_app).
    assert (Ed' : zdrop (zlen pre + 1) (ex_addresses t) = l). { rewrite E'. apply zdrop_app_eq. rewrite zlen_app. reflexivity. }
    destruct Ht as (Hb & Hn & Hr). unfold u16_ok in Hb.
    destruct (existsb (fun j => j =? zlen pre) (ex_ordinals t)) eqn:Ex.
    + rewrite orb_true_r. cbn [app]. exists L. split; [exact HL|]. eapply results_same; [|exact HR]. unfold expit_next. cbn [ei_addresses negb ei_index ei_seen]. rewrite Ed, Ed'. cbn [exp_addresses]. rewrite Hz. reflexivity.
    + rewrite orb_false_r. destruct (a =? 0) eqn:Ea; cbn [app].
      * exists L. split; [exact HL|]. eapply results_same; [|exact HR]. unfold expit_next. cbn [ei_addresses negb ei_index ei_seen]. rewrite Ed, Ed'. cbn [exp_addresses]. rewrite Hz. cbn [unwrap orb]. rewrite Ea. reflexivity.
      * assert (Eo : ordinal_from_index t (wrap_u 16 (zlen pre)) = Ok (ex_base t + zlen pre)).
        { rewrite wrap_u_id by lia. apply ordinal_from_index_iff; [split; [exact Hb|auto]|lia|]. split; lia. }
        destruct (results_step (expit_next image t) {| ei_index := zlen pre; ei_addresses := true; ei_seen := seen |} {| ei_index := zlen pre + 1; ei_addresses := true; ei_seen := seen |}
          (mk_export image t a (ex_base t + zlen pre) (NOrdinal (ex_base t + zlen pre))) L (export_unnamed (ex_data t) (ex_va t) image (ex_base t) (zlen pre) a)) as (r & Hr1 & Hr2).
        -- unfold expit_next. cbn [ei_addresses negb ei_index ei_seen]. rewrite Ed. cbn [exp_addresses]. rewrite Hz. cbn [unwrap orb]. rewrite Ea, Eo. reflexivity.
        -- apply mk_export_np.
        -- apply mk_export_np.
        -- intro x. apply mk_export_iff.
        -- exact HR.
        -- exists (r :: L). split; [constructor; assumption|exact Hr2].
Qed.
Lemma existsb_snoc {A} (f : A -> bool) l x : existsb f (l ++ [x]) = existsb f l || f x.
Proof. rewrite existsb_app. cbn [existsb]. rewrite orb_false_r. reflexivity. Qed.
Lemma named_results image t : tab_ok t -> forall ns is_ pn pi seen, ex_names t = pn ++ ns -> ex_ordinals t = pi ++ is_ -> zlen pn = zlen pi ->
  (forall i, 0 <= i < zlen (ex_addresses t) -> zget seen i = Some (existsb (fun j => j =? i) pi)) ->
  exists L1 L2, Forall2 (fun '(p, i) => outcome (export_named (ex_data t) (ex_va t) image (ex_base t) (ex_addresses t) p i)) (combine ns is_) L1 /\
    Forall2 (fun '(i, a) => outcome (export_unnamed (ex_data t) (ex_va t) image (ex_base t) i a)) (unnamed (ex_ordinals t) 0 (ex_addresses t)) L2 /\
    results (expit_next image t) {| ei_index := zlen pn; ei_addresses := false; ei_seen := seen |} (L1 ++ L2).
Proof.
  intros Ht ns. induction ns as [|p ns IH]; intros is_ pn pi seen En Ei Hl Hs; pose proof Ht as (Hb & Hn & Hz & Hi).
  - rewrite app_nil_r in En. assert (is_ = []). { rewrite En, Ei, zlen_app in Hz. apply zlen_0_nil. lia. } subst is_. rewrite app_nil_r in Ei. rewrite <- Ei in Hs.
    destruct (unnamed_results image t Ht (ex_addresses t) [] seen eq_refl Hs) as (L & HL & HR). exists [], L. split; [constructor|]. split; [exact HL|]. eapply results_same; [|exact HR].
    unfold expit_next. cbn [ei_addresses negb ei_index ei_seen]. rewrite (proj2 (zget_None (ex_names t) (zlen pn))) by (rewrite En; lia). reflexivity.
  - destruct is_ as [|i is_]. { exfalso. rewrite En, Ei, !zlen_app, zlen_cons in Hz. change (zlen (@nil Z)) with 0 in Hz. pose proof (zlen_nonneg ns). lia. }
    assert (Hi16 : u16_ok i). { rewrite Ei in Hi. apply Forall_app in Hi as [_ Hi]. exact (Forall_inv Hi). }
    pose proof Hi16 as Hi'. unfold u16_ok in Hi'.
    set (seen' := set_at seen (Z.to_nat i) (fun _ => true)).
    assert (Hs' : forall j, 0 <= j < zlen (ex_addresses t) -> zget seen' j = Some (existsb (fun k => k =? j) (pi ++ [i]))).
    { intros j Hj. unfold seen'. rewrite zget_set_at by lia. rewrite (Hs j Hj), existsb_snoc. cbn [option_map]. destruct (Z.eqb_spec j i), (Z.eqb_spec i j); try lia; [rewrite orb_true_r|rewrite orb_false_r]; reflexivity. }
    destruct (IH is_ (pn ++ [p]) (pi ++ [i]) seen') as (L1 & L2 & H1 & H2 & HR).
    { rewrite <- app_assoc. exact En. } { rewrite <- app_assoc. exact Ei. } { rewrite !zlen_app, Hl. reflexivity. } { exact Hs'. }
    rewrite zlen_app in HR. change (zlen [p]) with 1 in HR.
    assert (Gp : zget (ex_names t) (zlen pn) = Some p) by (rewrite En; apply zget_mid; lia).
    assert (Gi : zget (ex_ordinals t) (zlen pn) = Some i) by (rewrite Ei; apply zget_mid; lia).
    destruct (results_step (expit_next image t) {| ei_index := zlen pn; ei_addresses := false; ei_seen := seen |} {| ei_index := zlen pn + 1; ei_addresses := false; ei_seen := seen' |}
       (a <- address_by_index t i ;; o <- ordinal_from_index t i ;; n <- name_from_pointer t p ;; mk_export image t a o (NName n)) (L1 ++ L2)
       (export_named (ex_data t) (ex_va t) image (ex_base t) (ex_addresses t) p i)) as (r & Hr1 & Hr2).
    + unfold expit_next. cbn [ei_addresses negb ei_index ei_seen]. rewrite Gp, Gi. reflexivity.
    + unfold address_by_index. destruct (zget (ex_addresses t) i); cbn [of_opt bind]; [|discriminate]. pose proof (ordinal_from_index_np t i Ht ltac:(lia)). destruct (ordinal_from_index t i); cbn [bind]; try congruence.
      unfold name_from_pointer. pose proof (b_read_string_at_np (ex_data t) (wrap_u 32 (p - ex_va t))). destruct (b_read_string_at _ _); cbn [bind]; try congruence. apply mk_export_np.
    + unfold address_by_index. destruct (zget (ex_addresses t) i); cbn [of_opt bind]; [|discriminate]. destruct (ordinal_from_index t i); cbn [bind]; try congruence. destruct (name_from_pointer t p); cbn [bind]; try congruence. apply mk_export_np.
    + intro x. unfold export_named, address_by_index. split.
      * intro E. destruct (zget (ex_addresses t) i) as [a|] eqn:Ea; [|discriminate]. cbn [of_opt bind] in E. destruct (ordinal_from_index t i) as [o| |] eqn:Eo; try discriminate. cbn [bind] in E.
        apply ordinal_from_index_iff in Eo as [_ ->]; [|exact Ht|lia]. destruct (name_from_pointer t p) as [n| |] eqn:Enm; try discriminate. cbn [bind] in E. apply name_from_pointer_iff in Enm. apply mk_export_iff in E as (tg & Htg & ->).
        exists a, n, tg. auto.
      * intros (a & n & tg & Ha & Hnm & Htg & ->). rewrite Ha. cbn [of_opt bind]. rewrite (proj2 (ordinal_from_index_iff t i (ex_base t + i) Ht ltac:(lia))) by (apply zget_Some_lt in Ha; split; lia). cbn [bind].
        apply name_from_pointer_iff in Hnm. rewrite Hnm. cbn [bind]. apply mk_export_iff. exists tg. split; [exact Htg|]. destruct tg; reflexivity.
    + exact HR.
    + exists (r :: L1), L2. split; [constructor; assumption|]. split; [exact H2|exact Hr2].
Qed.
Lemma iterator_results image t : tab_ok t ->
  exists L1 L2, Forall2 (fun '(p, i) => outcome (export_named (ex_data t) (ex_va t) image (ex_base t) (ex_addresses t) p i)) (combine (ex_names t) (ex_ordinals t)) L1 /\
    Forall2 (fun '(i, a) => outcome (export_unnamed (ex_data t) (ex_va t) image (ex_base t) i a)) (unnamed (ex_ordinals t) 0 (ex_addresses t)) L2 /\
    results (expit_next image t) (expit_new t) (L1 ++ L2).
Proof.
  intro Ht. apply (named_results image t Ht (ex_names t) (ex_ordinals t) [] [] _ eq_refl eq_refl eq_refl). intros i Hi. destruct (zget_lt_Some (ex_addresses t) i ltac:(lia)) as (a & Ha). rewrite zget_map, Ha. reflexivity.
Qed.
