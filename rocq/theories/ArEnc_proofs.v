From Verif Require Import Ar_spec.
From Verif Require Import Base Core_proofs Str_proofs Util_proofs Hash_proofs File_proofs Rel_proofs Obj_proofs Ar_proofs Elf_proofs.

(** * Digits *)
Lemma digits_spec radix n v : 1 < radix -> 0 <= v < radix ^ Z.of_nat n -> (0 < n)%nat ->
  exists ds, digits radix n v = map (fun d => 48 + d) ds /\ ds <> [] /\ Forall (fun d => 0 <= d < radix) ds /\ value radix ds = v /\
    zlen ds <= Z.of_nat n.
Proof.
  intros Hr. revert v. induction n as [|n IH]; intros v Hv Hn; [lia|]. cbn [digits].
  assert (Hm : 0 <= v mod radix < radix) by (apply Z.mod_pos_bound; lia).
  destruct (Z.ltb_spec v radix).
  - exists [v]. rewrite Z.mod_small by lia. split; [reflexivity|]. split; [discriminate|]. split; [constructor; [lia|constructor]|].
    split; [reflexivity|]. zl_norm. change (zlen [v]) with 1. lia.
  - assert ((0 < n)%nat) by (destruct n; [|lia]; change (radix ^ Z.of_nat 1) with (radix ^ 1) in Hv; lia).
    destruct (IH (v / radix)) as (ds & H1 & H2 & H3 & H4 & H5); [|assumption|].
    { split; [apply Z.div_pos; lia|]. apply Z.div_lt_upper_bound; [lia|]. rewrite Nat2Z.inj_succ, Z.pow_succ_r in Hv by lia. lia. }
    exists (ds ++ [v mod radix]). rewrite H1, map_app. split; [reflexivity|]. split; [destruct ds; discriminate|].
    split; [apply Forall_app; split; [assumption|constructor; [lia|constructor]]|].
    split; [unfold value in *; rewrite fold_left_app; cbn [fold_left]; rewrite H4; pose proof (Z.div_mod v radix); lia|].
    rewrite zlen_app. change (zlen [v mod radix]) with 1. lia.
Qed.
Lemma pad_to_spec n b : zlen b <= n -> zlen (pad_to n b) = n /\ exists pad, pad_to n b = b ++ pad /\ (pad = [] \/ exists tl, pad = 32 :: tl).
Proof.
  intro H. unfold pad_to. split.
  - rewrite zlen_app. unfold zlen at 2. rewrite repeat_length. lia.
  - exists (repeat 32 (Z.to_nat (n - zlen b))). split; [reflexivity|]. destruct (Z.to_nat (n - zlen b)); [left; reflexivity|right; eexists; reflexivity].
Qed.
Lemma zlen_map' {A B} (f : A -> B) l : zlen (map f l) = zlen l.
Proof. unfold zlen. rewrite map_length. reflexivity. Qed.
Lemma digits_number radix n k v : 1 < radix -> 0 <= v < radix ^ Z.of_nat n -> v < 2 ^ 64 -> (0 < n)%nat -> Z.of_nat n <= k ->
  zlen (digits radix n v) <= Z.of_nat n /\ ascii_number radix (pad_to k (digits radix n v)) v.
Proof.
  intros Hr Hv Hv2 Hn Hk. destruct (digits_spec radix n v Hr Hv Hn) as (ds & H1 & H2 & H3 & H4 & H5).
  assert (Hl : zlen (digits radix n v) <= Z.of_nat n) by (rewrite H1, zlen_map'; assumption). split; [exact Hl|].
  destruct (pad_to_spec k (digits radix n v) ltac:(lia)) as (_ & pad & H6 & H7). exists ds, pad. rewrite H6, H1. symmetry in H4. auto 8.
Qed.
(** * Headers *)
Lemma header_spec nf s sz : zlen nf <= 16 -> stamp_ok s -> 0 <= sz < 10 ^ 10 ->
  let h := enc_header nf s sz in
  zlen h = 60 /\ ah_name h = pad_to 16 nf /\ ascii_number 10 (ah_date h) (st_date s) /\ ascii_number 10 (ah_uid h) (st_uid s) /\
  ascii_number 10 (ah_gid h) (st_gid s) /\ ascii_number 8 (ah_mode h) (st_mode s) /\ ascii_number 10 (ah_size h) sz /\
  ah_terminator h = AR_TERMINATOR.
Proof.
  intros Hnf (Hd & Hu & Hg & Hm) Hsz h. 
  destruct (digits_number 10 12 12 (st_date s)) as [Ld Nd]; [lia|lia|lia|lia|lia|].
  destruct (digits_number 10 6 6 (st_uid s)) as [Lu Nu]; [lia|lia|lia|lia|lia|].
  destruct (digits_number 10 6 6 (st_gid s)) as [Lg Ng]; [lia|lia|lia|lia|lia|].
  destruct (digits_number 8 8 8 (st_mode s)) as [Lm Nm]; [lia|lia|lia|lia|lia|].
  destruct (digits_number 10 10 10 sz) as [Ls Ns]; [lia|lia|lia|lia|lia|].
  pose proof (proj1 (pad_to_spec 16 nf Hnf)) as Pn.
  pose proof (proj1 (pad_to_spec 12 _ Ld)) as Pd. pose proof (proj1 (pad_to_spec 6 _ Lu)) as Pu.
  pose proof (proj1 (pad_to_spec 6 _ Lg)) as Pg. pose proof (proj1 (pad_to_spec 8 _ Lm)) as Pm. pose proof (proj1 (pad_to_spec 10 _ Ls)) as Ps.
  subst h. unfold enc_header. change (decimal ?n ?v) with (digits 10 n v). unfold decimal, octal.
  set (a := pad_to 16 nf) in *. set (b := pad_to 12 _) in *. set (c := pad_to 6 (digits 10 6 (st_uid s))) in *.
  set (d := pad_to 6 (digits 10 6 (st_gid s))) in *. set (e := pad_to 8 _) in *. set (f := pad_to 10 _) in *. clearbody a b c d e f.
  assert (zlen AR_TERMINATOR = 2) by reflexivity.
  split; [rewrite !zlen_app; lia|]. unfold ah_name, ah_date, ah_uid, ah_gid, ah_mode, ah_size, ah_terminator.
  assert (Sl : forall (p x q : bytes) o n, zlen p = o -> zlen x = n -> zslice o n (p ++ x ++ q) = x).
  { intros p x q o n <- <-. apply zslice_app_eq; reflexivity. }
  split; [apply (Sl [] a); [reflexivity|lia]|].
  split; [rewrite (Sl a b); [assumption|lia|lia]|].
  split; [rewrite (app_assoc a), (Sl (a ++ b) c); [assumption|rewrite zlen_app; lia|lia]|].
  split; [rewrite (app_assoc b), (app_assoc a), (Sl (a ++ b ++ c) d); [assumption|rewrite !zlen_app; lia|lia]|].
  split; [rewrite (app_assoc c), (app_assoc b), (app_assoc a), (Sl (a ++ b ++ c ++ d) e); [assumption|rewrite !zlen_app; lia|lia]|].
  split; [rewrite (app_assoc d), (app_assoc c), (app_assoc b), (app_assoc a), (Sl (a ++ b ++ c ++ d ++ e) f); [assumption|rewrite !zlen_app; lia|lia]|].
  rewrite <- (app_nil_r AR_TERMINATOR) at 1.
  rewrite (app_assoc e), (app_assoc d), (app_assoc c), (app_assoc b), (app_assoc a), (Sl (a ++ b ++ c ++ d ++ e ++ f) AR_TERMINATOR); [reflexivity|rewrite !zlen_app; lia|lia].
Qed.

(** * One member *)
Lemma even_pad_len sz : zlen (even_pad sz) = sz mod 2.
Proof. unfold even_pad. destruct (Z.eqb_spec (sz mod 2) 0); [rewrite e; reflexivity|]. pose proof (Z.mod_pos_bound sz 2). change (zlen [10]) with 1. lia. Qed.
Lemma enc_member_len nf s d : zlen nf <= 16 -> stamp_ok s -> zlen d < 10 ^ 10 -> zlen (enc_member nf s d) = 60 + zlen d + zlen d mod 2.
Proof.
  intros H1 H2 H3. pose proof (zlen_nonneg d). destruct (header_spec nf s (zlen d) H1 H2 ltac:(lia)) as (H4 & _).
  unfold enc_member. rewrite !zlen_app, H4, even_pad_len. lia.
Qed.
Lemma holds_pre pre x post : holds (pre ++ x ++ post) (zlen pre) x.
Proof. exists pre, post. auto. Qed.
Definition stamps (m : member) (s : stamp) : Prop :=
  mb_date m = Some (st_date s) /\ mb_uid m = Some (st_uid s) /\ mb_gid m = Some (st_gid s) /\ mb_mode m = Some (st_mode s).
Lemma enc_member_at pre nf s d post names name doff dsz : zlen nf <= 16 -> stamp_ok s -> zlen d < 10 ^ 10 ->
  let F := pre ++ enc_member nf s d ++ post in
  name_of F names (pad_to 16 nf) (zlen pre + 60) (zlen d) name doff dsz ->
  exists m, member_at F names false (zlen pre) m (zlen pre + zlen (enc_member nf s d)) /\ mb_name m = name /\ mb_offset m = doff /\ mb_size m = dsz /\ stamps m s.
Proof.
  intros H1 H2 H3 F Hn. pose proof (zlen_nonneg d). destruct (header_spec nf s (zlen d) H1 H2 ltac:(lia)) as (L & Hnm & Hd & Hu & Hg & Hm & Hs & Ht).
  set (h := enc_header nf s (zlen d)) in *.
  exists {| mb_header := HCommon h; mb_name := name; mb_offset := doff; mb_size := dsz |}. split; [|split; [reflexivity|split; [reflexivity|split; [reflexivity|]]]].
  - apply (member_at_intro _ _ _ _ _ _ h (zlen d) doff); cbn [mb_header mb_name mb_offset mb_size]; auto.
    + subst F. unfold enc_member. fold h. rewrite <- !app_assoc. apply holds_pre.
    + rewrite Hnm. exact Hn.
    + split; [reflexivity|]. rewrite enc_member_len by assumption. lia.
  - unfold stamps, mb_date, mb_uid, mb_gid, mb_mode. cbn [mb_header].
    assert (Hne : forall o n, 0 <= o -> 0 < n -> o + n <= 60 -> zslice o n h <> []).
    { intros o n Ho Hn1 Hn2 E. pose proof (zlen_zslice o n h) as HZ. rewrite E in HZ. change (zlen (@nil Z)) with 0 in HZ. lia. }
    split; [|split; [|split]]; apply parse_u64_digits_iff; auto; try lia; apply Hne; lia.
Qed.
Lemma pad_get n b i x : zlen b <= n -> zget b i = Some x -> zget (pad_to n b) i = Some x.
Proof. intros H H1. destruct (pad_to_spec n b H) as (_ & pad & -> & _). pose proof (zget_Some_lt _ _ _ H1). rewrite zget_app1 by lia. exact H1. Qed.
Lemma pad_out n b i x : zget (pad_to n b) i = Some x -> zlen b <= i -> x = 32.
Proof.
  unfold pad_to. intros H Hi. rewrite zget_app2 in H by lia. apply zget_In in H. apply repeat_spec in H. exact H.
Qed.
Lemma pad_in n b x : In x (pad_to n b) -> In x b \/ x = 32.
Proof. unfold pad_to. rewrite in_app_iff. intros [H|H]; [auto|]. apply repeat_spec in H. auto. Qed.
Lemma digits_digit n v : 0 <= v < 10 ^ Z.of_nat n -> (0 < n)%nat -> exists c tl, decimal n v = c :: tl /\ 48 <= c <= 57.
Proof.
  intros Hv Hn. destruct (digits_spec 10 n v ltac:(lia) Hv Hn) as (ds & E & Hne & HF & _). unfold decimal. rewrite E. destruct ds as [|d ds]; [congruence|].
  cbn [map]. inversion HF; subst. eexists _, _. split; [reflexivity|]. lia.
Qed.
Lemma pad_cons n c tl : 0 < n -> zlen (c :: tl) <= n -> pad_to n (c :: tl) = c :: pad_to (n - 1) tl.
Proof. intros Hn Hl. unfold pad_to. rewrite zlen_cons. cbn [app]. do 3 f_equal. f_equal. lia. Qed.

(** "name/" *)
Lemma gnu_short_name F names name off sz : name <> [] -> ~ In 47 name -> zlen name <= 15 ->
  name_of F names (pad_to 16 (name ++ [47])) off sz name off sz.
Proof.
  intros Hne Hn Hl. assert (Hl1 : zlen (name ++ [47]) = zlen name + 1) by (rewrite zlen_app; reflexivity).
  destruct (pad_to_spec 16 (name ++ [47]) ltac:(lia)) as (_ & pad & E & _).
  apply (nm_slash _ _ _ _ _ name pad); auto.
  - rewrite E, <- app_assoc. reflexivity.
  - intros [-> (d & Hd & Hr)]. apply pad_out in Hd; [lia|]. rewrite Hl1. reflexivity.
Qed.
(** "/k" *)
Lemma gnu_long_name F names k name off sz : 0 <= k < 10 ^ 15 -> holds names k (name ++ [47; 10]) -> ~ In 10 name -> ~ In 0 name ->
  zlen (47 :: decimal 15 k) <= 16 /\ name_of F names (pad_to 16 (47 :: decimal 15 k)) off sz name off sz.
Proof.
  intros Hk Hh H10 H0. destruct (digits_number 10 15 15 k) as [L N]; [lia|exact Hk|lia|lia|lia|]. fold decimal in L, N. change (Z.of_nat 15) with 15 in L.
  split; [rewrite zlen_cons; lia|]. rewrite pad_cons by (try rewrite zlen_cons; lia).
  apply (nm_table _ _ _ _ _ (pad_to (16 - 1) (decimal 15 k)) k name [47; 10]); auto.
  destruct (digits_digit 15 k Hk ltac:(lia)) as (c & tl & E & Hc). exists c. split; [|lia].
  change (16 - 1) with 15. rewrite zget_cons_pred by lia. rewrite E in *. apply pad_get; [lia|]. reflexivity.
Qed.
(** "#1/n" *)
Lemma bsd_long_name F names off name d : zlen name < 10 ^ 10 -> holds F off (name ++ d) -> ~ In 0 name ->
  zlen ([35; 49; 47] ++ decimal 13 (zlen name)) <= 16 /\
  name_of F names (pad_to 16 ([35; 49; 47] ++ decimal 13 (zlen name))) off (zlen (name ++ d)) name (off + zlen name) (zlen d).
Proof.
  intros Hl Hh H0. pose proof (zlen_nonneg name). destruct (digits_number 10 13 13 (zlen name)) as [L N]; [lia|lia|lia|lia|lia|]. fold decimal in L, N.
  change (Z.of_nat 13) with 13 in L. cbn [app].
  split; [rewrite !zlen_cons; lia|]. rewrite !pad_cons by (try rewrite !zlen_cons; lia).
  replace (zlen d) with (zlen (name ++ d) - zlen name) by (rewrite zlen_app; lia).
  apply (nm_bsd _ _ _ _ _ (pad_to (16 - 1 - 1 - 1) (decimal 13 (zlen name))) (zlen name) name name); auto.
  - destruct (digits_digit 13 (zlen name) ltac:(lia) ltac:(lia)) as (c & tl & E & Hc). exists c. split; [|lia].
    change (16 - 1 - 1 - 1) with 13. rewrite !zget_cons_pred by lia. rewrite E in *. apply pad_get; [lia|]. reflexivity.
  - rewrite zlen_app. pose proof (zlen_nonneg d). lia.
  - destruct Hh as (p & q & E1 & E2). exists p, (d ++ q). rewrite E1, <- app_assoc. auto.
  - split; [assumption|]. left. reflexivity.
Qed.

(** * The lists of members *)
Lemma contents_data F m : zlen F < 2 ^ 63 -> mb_offset m <> 0 -> forall d, contents F m d -> mb_data F m = Ok d.
Proof.
  intros HF Hnz d [H1 H2]. unfold mb_data, mb_is_thin. destruct (Z.eqb_spec (mb_offset m) 0); [lia|]. rewrite <- H2.
  apply holds_read_bytes_at; first [assumption|lia].
Qed.
Lemma entry_of F m e : zlen F < 2 ^ 63 -> 0 < mb_offset m -> mb_name m = en_name e -> holds F (mb_offset m) (en_data e) -> mb_size m = zlen (en_data e) ->
  stamps m (en_stamp e) -> is_entry F m e.
Proof.
  intros HF Ho Hn Hd Hs (H1 & H2 & H3 & H4). unfold is_entry. assert (mb_data F m = Ok (en_data e)); [|auto 10].
  apply contents_data; [assumption|lia|]. split; [assumption|symmetry; assumption].
Qed.
Lemma header_data pre nf s d post : zlen nf <= 16 -> stamp_ok s -> zlen d < 10 ^ 10 ->
  holds (pre ++ enc_member nf s d ++ post) (zlen pre + 60) d.
Proof.
  intros H1 H2 H3. pose proof (zlen_nonneg d). destruct (header_spec nf s (zlen d) H1 H2 ltac:(lia)) as (L & _).
  exists (pre ++ enc_header nf s (zlen d)), (even_pad (zlen d) ++ post). split; [unfold enc_member; rewrite <- !app_assoc; reflexivity|].
  rewrite zlen_app. lia.
Qed.
Lemma gnu_members_from names npre pre l : Forall entry_ok l -> zlen names < 10 ^ 15 -> names = npre ++ gnu_names l ->
  let F := pre ++ gnu_members (zlen npre) l in zlen F < 2 ^ 63 ->
  exists ms, members_from F names false (zlen pre) ms false /\ Forall2 (is_entry F) ms l.
Proof.
  intros Hok Hnm. revert npre pre. induction Hok as [|e l He Hl IH]; intros npre pre En F HF.
  - exists []. split; [|constructor]. subst F. cbn [gnu_members]. rewrite app_nil_r. constructor. lia.
  - destruct He as (E1 & E2 & E3 & E4 & E5 & E6). pose proof (zlen_nonneg (en_name e)). pose proof (zlen_nonneg (en_data e)). pose proof (zlen_nonneg pre).
    subst F. cbn [gnu_members] in *. unfold gnu_names in En. cbn [map concat] in En. fold (gnu_names l) in En. unfold gnu_short in *.
    destruct (Z.leb_spec (zlen (en_name e)) 15).
    + destruct (enc_member_at pre (en_name e ++ [47]) (en_stamp e) (en_data e) (gnu_members (zlen npre) l) names (en_name e)
        (zlen pre + 60) (zlen (en_data e))) as (m & M1 & M2 & M3 & M4 & M5).
      { rewrite zlen_app. change (zlen [47]) with 1. lia. } { assumption. } { lia. } { apply gnu_short_name; assumption. }
      set (em := enc_member (en_name e ++ [47]) (en_stamp e) (en_data e)) in *.
      destruct (IH npre (pre ++ em)) as (ms & H1' & H2'); [exact En|rewrite <- app_assoc; assumption|].
      rewrite <- app_assoc in H1', H2'. exists (m :: ms). split.
      * eapply mf_cons; [|exact M1|rewrite <- zlen_app; exact H1']. apply member_next in M1. lia.
      * constructor; [|assumption]. apply entry_of; auto; [lia|].
        rewrite M3. apply header_data; [rewrite zlen_app; change (zlen [47]) with 1; lia|assumption|lia].
    + pose proof (gnu_long_name) as G.
      assert (Hh : holds names (zlen npre) (en_name e ++ [47; 10])) by (exists npre, (gnu_names l); auto).
      assert (Hk : 0 <= zlen npre < 10 ^ 15).
      { split; [apply zlen_nonneg|]. rewrite En, zlen_app in Hnm. pose proof (zlen_nonneg ((en_name e ++ [47; 10]) ++ gnu_names l)). lia. }
      set (F := pre ++ enc_member (47 :: decimal 15 (zlen npre)) (en_stamp e) (en_data e) ++ gnu_members (zlen npre + zlen (en_name e) + 2) l) in *.
      destruct (G F names (zlen npre) (en_name e) (zlen pre + 60) (zlen (en_data e)) Hk Hh E3 E4) as [G1 G2]. clear G.
      destruct (enc_member_at pre _ (en_stamp e) (en_data e) (gnu_members (zlen npre + zlen (en_name e) + 2) l) names _ _ _ G1 E5 ltac:(lia) G2)
        as (m & M1 & M2 & M3 & M4 & M5).
      fold F in M1. set (em := enc_member (47 :: decimal 15 (zlen npre)) (en_stamp e) (en_data e)) in *.
      destruct (IH (npre ++ en_name e ++ [47; 10]) (pre ++ em)) as (ms & H1' & H2').
      { rewrite En, <- !app_assoc. reflexivity. }
      { replace (zlen (npre ++ en_name e ++ [47; 10])) with (zlen npre + zlen (en_name e) + 2) by (rewrite !zlen_app; change (zlen [47; 10]) with 2; lia).
        rewrite <- app_assoc. exact HF. }
      replace (zlen (npre ++ en_name e ++ [47; 10])) with (zlen npre + zlen (en_name e) + 2) in H1', H2' by (rewrite !zlen_app; change (zlen [47; 10]) with 2; lia).
      rewrite <- app_assoc in H1', H2'. fold F in H1', H2'. exists (m :: ms). split.
      * eapply mf_cons; [|exact M1|rewrite <- zlen_app; exact H1']. apply member_next in M1. lia.
      * constructor; [|assumption]. apply entry_of; auto; [lia|]. rewrite M3. apply header_data; [assumption|assumption|lia].
Qed.
Lemma bsd_members_from names pre l : Forall entry_ok l ->
  let F := pre ++ concat (map (fun e => bsd_member (en_name e) (en_stamp e) (en_data e)) l) in zlen F < 2 ^ 63 ->
  exists ms, members_from F names false (zlen pre) ms false /\ Forall2 (is_entry F) ms l.
Proof.
  intros Hok. revert pre. induction Hok as [|e l He Hl IH]; intros pre F HF.
  - exists []. split; [|constructor]. subst F. cbn [map concat]. rewrite app_nil_r. constructor. lia.
  - destruct He as (E1 & E2 & E3 & E4 & E5 & E6). pose proof (zlen_nonneg (en_name e)). pose proof (zlen_nonneg (en_data e)). pose proof (zlen_nonneg pre).
    subst F. cbn [map concat] in *. unfold bsd_member at 1 in HF. unfold bsd_member at 1. unfold bsd_member at 2.
    set (tl := concat (map (fun e => bsd_member (en_name e) (en_stamp e) (en_data e)) l)) in *.
    set (nf := [35; 49; 47] ++ decimal 13 (zlen (en_name e))) in *. set (em := enc_member nf (en_stamp e) (en_name e ++ en_data e)) in *.
    assert (Hlen : zlen (en_name e ++ en_data e) < 10 ^ 10) by (rewrite zlen_app; lia).
    assert (Hnl : zlen nf <= 16).
    { destruct (digits_number 10 13 13 (zlen (en_name e))) as [L _]; [lia|lia|lia|lia|lia|]. fold decimal in L. subst nf. rewrite zlen_app.
      change (zlen [35; 49; 47]) with 3. change (Z.of_nat 13) with 13 in L. unfold decimal in *. lia. }
    pose proof (header_data pre nf (en_stamp e) (en_name e ++ en_data e) tl Hnl E5 Hlen) as Hd. fold em in Hd.
    destruct (bsd_long_name (pre ++ em ++ tl) names (zlen pre + 60) (en_name e) (en_data e)) as [G1 G2]; [lia|assumption|assumption|].
    destruct (enc_member_at pre nf (en_stamp e) (en_name e ++ en_data e) tl names _ _ _ G1 E5 Hlen G2) as (m & M1 & M2 & M3 & M4 & M5).
    fold em in M1. destruct (IH (pre ++ em)) as (ms & H1' & H2'); [rewrite <- app_assoc; assumption|]. rewrite <- app_assoc in H1', H2'.
    exists (m :: ms). split.
    + eapply mf_cons; [|exact M1|rewrite <- zlen_app; exact H1']. apply member_next in M1. lia.
    + constructor; [|assumption]. apply entry_of; auto; [lia|]. rewrite M3.
      destruct Hd as (p & q & Ep & Eq). exists (p ++ en_name e), q. rewrite Ep, <- !app_assoc. split; [reflexivity|]. rewrite zlen_app. lia.
Qed.

(** * Whole archives *)
Lemma no_stamp_ok : stamp_ok no_stamp.
Proof. unfold stamp_ok, no_stamp. cbn [st_date st_uid st_gid st_mode]. lia. Qed.
Lemma until_pad stop n b : ~ In stop b -> stop = 32 -> zlen b <= n -> until stop (pad_to n b) b.
Proof.
  intros H -> Hl. split; [assumption|]. destruct (pad_to_spec n b Hl) as (_ & pad & -> & [->|[tl ->]]); [left; symmetry; apply app_nil_r|right; eauto].
Qed.
Lemma special_name F names nm off sz : nm = N_slash \/ nm = N_names -> name_of F names (pad_to 16 nm) off sz nm off sz.
Proof.
  intros H. apply nm_special with (tl := match pad_to 16 nm with _ :: tl => tl | [] => [] end).
  - destruct H as [->| ->]; reflexivity.
  - intros (d & Hd & Hr). destruct H as [->| ->]; vm_compute in Hd; injection Hd as <-; lia.
  - apply until_pad; [|reflexivity|]; destruct H as [->| ->]; [| |vm_compute; discriminate|vm_compute; discriminate]; cbn; intuition discriminate.
Qed.
Lemma gnu_round symtab l : Forall entry_ok l -> zlen symtab < 10 ^ 10 -> zlen (gnu_names l) < 10 ^ 10 ->
  let F := gnu_archive symtab l in file_ok F ->
  exists a ms, ar_parse F = Ok a /\ ar_kind a = AKGnu /\ ar_thin a = false /\ ar_data a = F /\
    (exists st, runs (ar_members_next a) (ar_members a) ms false st) /\ Forall2 (is_entry F) ms l /\
    ar_symbols a = (68, zlen symtab) /\ holds F 68 symtab.
Proof.
  intros Hok Hs Hn F HF. pose proof (zlen_nonneg (gnu_names l)).
  set (m1 := enc_member [47] no_stamp symtab). set (m2 := enc_member [47; 47] no_stamp (gnu_names l)).
  assert (L1 : zlen [47] <= 16) by (vm_compute; discriminate). assert (L2 : zlen [47; 47] <= 16) by (vm_compute; discriminate).
  assert (EF1 : F = AR_MAGIC ++ m1 ++ (m2 ++ gnu_members 0 l)) by reflexivity.
  assert (EF2 : F = (AR_MAGIC ++ m1) ++ m2 ++ gnu_members 0 l) by (rewrite EF1, <- !app_assoc; reflexivity).
  assert (EF3 : F = ((AR_MAGIC ++ m1) ++ m2) ++ gnu_members 0 l) by (rewrite EF1, <- !app_assoc; reflexivity).
  destruct (enc_member_at AR_MAGIC [47] no_stamp symtab (m2 ++ gnu_members 0 l) [] _ _ _ L1 no_stamp_ok Hs (special_name _ [] N_slash _ _ (or_introl eq_refl)))
    as (s1 & A1 & A2 & A3 & A4 & _). fold m1 in A1. rewrite <- EF1 in A1.
  destruct (enc_member_at (AR_MAGIC ++ m1) [47; 47] no_stamp (gnu_names l) (gnu_members 0 l) [] _ _ _ L2 no_stamp_ok Hn (special_name _ [] N_names _ _ (or_intror eq_refl)))
    as (s2 & B1 & B2 & B3 & B4 & _). fold m2 in B1. rewrite <- EF2 in B1.
  pose proof (header_data AR_MAGIC [47] no_stamp symtab (m2 ++ gnu_members 0 l) L1 no_stamp_ok Hs) as D1. fold m1 in D1. rewrite <- EF1 in D1.
  pose proof (header_data (AR_MAGIC ++ m1) [47; 47] no_stamp (gnu_names l) (gnu_members 0 l) L2 no_stamp_ok Hn) as D2. fold m2 in D2. rewrite <- EF2 in D2.
  destruct (gnu_members_from (gnu_names l) [] ((AR_MAGIC ++ m1) ++ m2) l Hok ltac:(lia) eq_refl) as (ms & C1 & C2).
  { change (zlen []) with 0. rewrite <- EF3. apply HF. }
  change (zlen []) with 0 in C1, C2. rewrite <- EF3 in C1, C2.
  change (zlen AR_MAGIC) with 8 in *. rewrite <- zlen_app in B1.
  exists (ar_mk F false AKGnu (68, zlen symtab) (gnu_names l) (zlen ((AR_MAGIC ++ m1) ++ m2))), ms.
  split; [apply parse_iff; [assumption|]|].
  - left. split; [reflexivity|]. split; [exists [], (m1 ++ m2 ++ gnu_members 0 l); auto|].
    exists (Some s1), (zlen ((AR_MAGIC ++ m1) ++ m2)). cbn [ar_thin ar_mk ar_kind ar_names ar_symbols ar_members]. split; [|split; [rewrite A3, A4; reflexivity|reflexivity]].
    replace (8 + zlen m1) with (zlen (AR_MAGIC ++ m1)) in A1 by (rewrite zlen_app; reflexivity).
    eapply fr_gnu_names; [split; [|split; [exact A1|exact A2]]|split; [|split; [exact B1|exact B2]]|].
    + apply member_next in A1. lia.
    + apply member_next in B1. lia.
    + split; [rewrite B3; assumption|lia].
  - do 3 (split; [reflexivity|]). split; [|split; [assumption|split; [reflexivity|assumption]]].
    apply members_iff in C1; [|assumption|apply zlen_nonneg]. destruct C1 as (o & C1 & _). eexists. exact C1.
Qed.
Lemma bsd_round symtab l : Forall entry_ok l -> zlen symtab < 10 ^ 9 ->
  let F := bsd_archive symtab l in file_ok F ->
  exists a ms, ar_parse F = Ok a /\ ar_kind a = AKBsd /\ ar_thin a = false /\ ar_data a = F /\
    (exists st, runs (ar_members_next a) (ar_members a) ms false st) /\ Forall2 (is_entry F) ms l /\
    ar_symbols a = (77, zlen symtab) /\ holds F 77 symtab.
Proof.
  intros Hok Hs F HF. 
  set (nf := [35; 49; 47] ++ decimal 13 (zlen N_symdef)).
  set (m1 := enc_member nf no_stamp (N_symdef ++ symtab)). set (tl := concat (map (fun e => bsd_member (en_name e) (en_stamp e) (en_data e)) l)).
  assert (L1 : zlen nf <= 16) by (vm_compute; discriminate).
  assert (EF1 : F = AR_MAGIC ++ m1 ++ tl) by reflexivity.
  assert (EF2 : F = (AR_MAGIC ++ m1) ++ tl) by (rewrite EF1, <- !app_assoc; reflexivity).
  assert (Hs2 : zlen (N_symdef ++ symtab) < 10 ^ 10) by (rewrite zlen_app; change (zlen N_symdef) with 9; lia).
  pose proof (header_data AR_MAGIC nf no_stamp (N_symdef ++ symtab) tl L1 no_stamp_ok Hs2) as D1. fold m1 in D1.
  assert (H0 : ~ In 0 N_symdef) by (cbn; intuition discriminate). assert (H9 : zlen N_symdef < 10 ^ 10) by (vm_compute; reflexivity).
  destruct (bsd_long_name _ [] _ _ _ H9 D1 H0) as [_ G]. fold nf in G.
  destruct (enc_member_at AR_MAGIC nf no_stamp _ tl [] _ _ _ L1 no_stamp_ok Hs2 G) as (s1 & A1 & A2 & A3 & A4 & _). fold m1 in A1. rewrite <- EF1 in *.
  destruct (bsd_members_from [] (AR_MAGIC ++ m1) l Hok) as (ms & C1 & C2).
  { fold tl. rewrite <- EF2. apply HF. } fold tl in C1, C2. rewrite <- EF2 in C1, C2.
  change (zlen AR_MAGIC) with 8 in *. change (8 + 60 + zlen N_symdef) with 77 in *.
  exists (ar_mk F false AKBsd (77, zlen symtab) [] (zlen (AR_MAGIC ++ m1))), ms.
  split; [apply parse_iff; [assumption|]|].
  - left. split; [reflexivity|]. split; [exists [], (m1 ++ tl); auto|].
    exists (Some s1), (zlen (AR_MAGIC ++ m1)). cbn [ar_thin ar_mk ar_kind ar_names ar_symbols ar_members]. split; [|split; [rewrite A3, A4; reflexivity|reflexivity]].
    replace (8 + zlen m1) with (zlen (AR_MAGIC ++ m1)) in A1 by (rewrite zlen_app; reflexivity).
    eapply fr_bsd with (nm := N_symdef); [split; [|split; [exact A1|exact A2]]|auto].
    apply member_next in A1. lia.
  - do 3 (split; [reflexivity|]). split; [|split; [assumption|split; [reflexivity|]]].
    + apply members_iff in C1; [|assumption|apply zlen_nonneg]. destruct C1 as (o & C1 & _). eexists. exact C1.
    + destruct D1 as (p & q & Ep & Eq). exists (p ++ N_symdef), q. rewrite Ep, <- !app_assoc. split; [reflexivity|]. rewrite zlen_app, Eq. reflexivity.
Qed.
