(** The sections of the tables written by the two-phase writer. *)
From Verif Require Import Base Core_spec Core_proofs Str_spec Str_proofs Util_proofs File_spec File_proofs Elf_spec Elf_proofs ElfR_proofs MachW_proofs.
From Verif Require CoffW_proofs.
From Verif Require Import ElfW_spec ElfWR_proofs ElfWB_proofs ElfWC_proofs.

Lemma verdef_total e ws n aux : verdef_calls e ws n aux -> 0 <= n /\ 0 <= aux.
Proof. induction 1 as [|d names ws n aux Hd H IH|d ws n aux Hd Hn H IH]; [lia| |lia]. pose proof (zlen_nonneg names). lia. Qed.
(** what the state after phase 1 has about a table, given what is written for it *)
Lemma table_at nm cs a c v b ra r1 R x ws d s name addr n : here cs a c v b ra r1 R -> part_of c = Some (PTable s) -> block nm R x a c v ws d -> v <> 0 ->
  (s = SShndx -> zlen (x_shndx x) = r_num R SSymtab * 4 /\ r_num R SSymtab * 4 < 2 ^ 32) ->
  r_off R s = v /\ sh_size (slot_header R s name addr n) = zlen d.
Proof.
  intros H P B Nv Hx. pose proof (b_call _ _ _ _ _ _ _ _ H) as C. pose proof (here_off _ _ _ _ _ _ _ _ s H P) as P1. destruct (here_num _ _ _ _ _ _ _ _ s H P) as (P2 & P3).
  destruct (here_const _ _ _ _ _ _ _ _ H) as (K1 & K2). pose proof (b_pos _ _ _ _ _ _ _ _ H) as Pl. pose proof (i_num _ _ (h_inv _ _ _ _ _ _ _ _ H)) as In_.
  pose proof (h_after _ _ _ _ _ _ _ _ H) as A.
  destruct B; cbn [part_of] in P; try discriminate; try congruence; cbn [call_ok] in C; cbn [after] in A.
  - (* strings *) injection P as <-. destruct A as (A0 & [(_ & Q & _)|(_ & m & d' & t & Ew & Ev & Lt & Er)]); [congruence|]. rewrite Er in P1. proj_in P1. rewrite upd_same in P1.
    split; [congruence|]. assert (zlen (r_data R s0) = r_num R s0) as ->.
    { apply (i_data _ _ (h_final _ _ _ _ _ _ _ _ H)); [exact C|congruence]. }
    destruct C as [<-|[<-|[<-|[]]]]; reflexivity.
  - (* symbols *) injection P as <-. destruct (In_ s0 C) as (I1 & I2). destruct A as (A0 & [(_ & Q & _)|(N0 & _ & Er)]); [congruence|]. rewrite Er in P1, P2. proj_in P1. proj_in P2. rewrite upd_same in P1.
    split; [congruence|]. unfold enc_null_sym. rewrite zlen_app, (len_map _ (sym_size (r_is64 R))) by (intro; apply sym_len). destruct I1 as [I1|I1]; [lia|].
    rewrite zlen_zeros by (destruct (r_is64 R); cbn [sym_size]; lia).
    destruct C as [<-|[<-|[]]]; cbn [slot_header sh_size]; rewrite P2; lia.
  - (* shndx *) injection P as <-. destruct (Hx eq_refl) as (X1 & X2). destruct A as (A0 & [(_ & Q & _)|(_ & _ & Er)]); [congruence|]. rewrite Er in P1. proj_in P1. rewrite upd_same in P1.
    split; [congruence|]. cbn [slot_header sh_size]. rewrite (proj2 (Z.eqb_neq _ _)) by congruence. unfold wrap_u; rewrite Z.mod_small; [congruence|]. pose proof (zlen_nonneg (x_shndx x)). lia.
  - (* dynamic *) injection P as <-. destruct A as (A0 & [(_ & Q & _)|(_ & _ & Er)]); [congruence|]. rewrite Er in P1, P2. proj_in P1. proj_in P2. rewrite upd_same in P1. rewrite upd_same in P2.
    split; [congruence|]. cbn [slot_header sh_size]. rewrite P2. rewrite (concat_all (dyn_size (r_is64 R))).
    + f_equal. symmetry. apply ElfR_proofs.Forall2_len in H0. unfold zlen. congruence.
    + intros k d Hd. clear - H0 Hd. revert k Hd. induction H0 as [|y z l l' Hy _ IH]; intros k Hd; [apply zget_In in Hd; destruct Hd|]. apply zget_Some_lt in Hd as Bk.
      destruct (Z.eq_dec k 0) as [->|N]; [rewrite zget_0 in Hd; assert (z = d) by congruence; subst; apply (dyn_len _ _ _ _ Hy)|rewrite zget_S in Hd by lia; exact (IH _ Hd)].
  - (* hash *) injection P as <-. destruct A as (_ & Er). rewrite Er in P1, P2. proj_in P1. proj_in P2. rewrite upd_same in P1. rewrite upd_same in P2.
    split; [exact P1|]. cbn [slot_header sh_size]. rewrite P2. symmetry. eapply hash_len; [| |eassumption]; lia.
  - (* gnu hash *) injection P as <-. cbv zeta in A. destruct A as (_ & Er). rewrite Er in P1, P2. proj_in P1. proj_in P2. rewrite upd_same in P1. rewrite upd_same in P2.
    split; [exact P1|]. cbn [slot_header sh_size]. rewrite P2, <- K1. symmetry. eapply gnu_len; [| | |eassumption]; lia.
  - (* versym *) injection P as <-. destruct (In_ SDynsym (or_intror (or_introl eq_refl))) as (I1 & I2). destruct A as (A0 & [(_ & Q & _)|(N0 & _ & Er)]); [congruence|]. rewrite Er in P1, P2. proj_in P1. proj_in P2. rewrite upd_same in P1. rewrite upd_same in P2.
    split; [congruence|]. cbn [slot_header sh_size]. rewrite P2. rewrite zlen_app, zlen_write_u, (len_map _ 2) by (intro; apply zlen_write_u). lia.
  - (* verdef *) injection P as <-. pose proof (verdef_total _ _ _ _ H0). destruct A as (A0 & [(_ & Q & _)|(_ & _ & Er)]); [congruence|]. rewrite Er in P1, P2, P3. proj_in P1. proj_in P2. proj_in P3. rewrite upd_same in P1. rewrite upd_same in P2. rewrite upd_same in P3.
    split; [congruence|]. cbn [slot_header sh_size]. rewrite P2, P3. unfold gnu_verdef_size. lia.
  - (* verneed *) injection P as <-. pose proof (verneed_pos _ _ _ _ H0). destruct A as (A0 & [(_ & Q & _)|(_ & _ & Er)]); [congruence|]. rewrite Er in P1, P2, P3. proj_in P1. proj_in P2. proj_in P3. rewrite upd_same in P1. rewrite upd_same in P2. rewrite upd_same in P3.
    split; [congruence|]. cbn [slot_header sh_size]. rewrite P2, P3. unfold gnu_verneed_size. lia.
  - (* attributes *) injection P as <-. destruct A as (A0 & [(_ & Q & _)|(_ & _ & Er)]); [congruence|]. rewrite Er in P1, P2. proj_in P1. proj_in P2. rewrite upd_same in P1. rewrite upd_same in P2.
    split; [congruence|]. cbn [slot_header sh_size]. rewrite P2. reflexivity.
Qed.
Lemma headers_app a b : headers (a ++ b) = headers a ++ headers b.
Proof. apply flat_map_app. Qed.
Section Tables.
Context (is64 : bool) (e : endian) (cs' : list rcmd) (vs : list Z) (R : rst).
Local Notation cs := (RFileHeader :: cs').
Context (Ord : in_order cs) (Run : r_run (r_new is64 e) cs = Ok (vs, R)).
(** the index that a call returned is that of its section header *)
Lemma index_at j c o : zget cs j = Some c -> (c = RSection /\ o = None \/ exists s, c = RIndex s /\ o = Some s) ->
  exists k, zget vs j = Some k /\ 1 <= k /\ zget (headers cs) (k - 1) = Some o.
Proof.
  intros Hj D. assert (Pj : 0 < j).
  { apply zget_Some_lt in Hj as Bj. destruct (Z.eq_dec j 0) as [->|N]; [|lia]. rewrite zget_0 in Hj. destruct D as [(-> & _)|(s & -> & _)]; discriminate. }
  destruct (here_at is64 e cs' vs R Ord Run j _ Hj Pj) as (b & v & ra & r1 & H & Hv). exists v. split; [exact Hv|].
  pose proof (next_section_eq _ _ (h_inv _ _ _ _ _ _ _ _ H)) as Nx. pose proof (zlen_nonneg (headers (ztake j cs))) as Hn.
  assert (Ev : v = 1 + zlen (headers (ztake j cs))).
  { pose proof (h_after _ _ _ _ _ _ _ _ H) as A. destruct D as [(-> & _)|(s & -> & _)]; cbn [after] in A.
    - destruct A as (_ & Q & _). congruence.
    - destruct A as (_ & _ & _ & t & id & _ & Q & _). congruence. }
  split; [lia|]. rewrite (h_cs _ _ _ _ _ _ _ _ H). change (c :: b) with ([c] ++ b). rewrite !headers_app.
  assert (headers [c] = [o]) as -> by (destruct D as [(-> & ->)|(s & -> & ->)]; reflexivity).
  apply zget_mid. lia.
Qed.
Lemma index_is s : slot_indexed s = true -> index_given cs vs s (r_index R s).
Proof.
  intro Hs. pose proof (final is64 e cs' vs R Ord Run) as Fi. destruct (r_id R s) as [id|] eqn:E.
  - left. destruct (i_idx _ _ Fi s ltac:(congruence)) as (Hin & _).
    assert (In (RIndex s) cs) as Hi.
    { unfold headers in Hin. apply in_flat_map in Hin. destruct Hin as (c & Hc & Q). destruct c; cbn in Q; try contradiction; destruct Q as [Q|[]]; try discriminate. injection Q as ->. exact Hc. }
    apply In_zget in Hi. destruct Hi as (j & Hj). exists j. split; [exact Hj|]. destruct (index_at j _ (Some s) Hj (or_intror (ex_intro _ s (conj eq_refl eq_refl)))) as (k & Hk & P & Hh).
    destruct (i_hdr _ _ Fi _ _ Hh) as (_ & Q). rewrite (Q Hs). rewrite Hk. f_equal. lia.
  - right. split; [|exact (index_zero is64 e _ _ _ Run s Hs E)]. intro Hi. apply In_zget in Hi. destruct Hi as (j & Hj).
    destruct (index_at j _ (Some s) Hj (or_intror (ex_intro _ s (conj eq_refl eq_refl)))) as (k & Hk & P & Hh). destruct (i_hdr _ _ Fi _ _ Hh) as (Q & _). congruence.
Qed.
(** the section header calls, in the order in which the sections were reserved *)
Lemma headers_match nm x ws ds : blocks nm R x [] cs vs ws ds -> r_shoff R <> 0 -> forall k o, zget (headers cs) k = Some o ->
  exists w, zget (header_calls ws) k = Some w /\ match o with Some s => exists addr n, w = WSlotHeader s addr n | None => exists h, w = WSectionHeader h end.
Proof.
  intros B Ns k o Hk. destruct (secs_at _ _ _ _ _ Ord Run Ns) as (i & Hi & Pi & Hv & Sc & Ps & Hh).
  destruct (split_at _ _ _ Hi) as (c2 & Ec). destruct (parts_only (ztake i cs) c2 RSectionHeaders PSections) as (G1 & G2); [rewrite <- Ec; exact (io_once _ Ord)|reflexivity|].
  pose proof B as B2. rewrite Ec in B2. destruct (blocks_split _ _ _ _ _ c2 _ _ _ _ B2) as (v1 & v' & v2 & w1 & w' & w2 & d1 & d' & d2 & Ev & -> & Ed & Lv & Ld & X1 & X2 & X3). rewrite !hdr_app.
  destruct (blocks_calls _ _ _ _ _ _ _ _ X1) as (_ & Y1). destruct (blocks_calls _ _ _ _ _ _ _ _ X3) as (_ & Y3). rewrite Y1, Y3 by assumption. rewrite app_nil_r. cbn [app].
  apply zget_Some_lt in Hi as Bi. assert (Lt : zlen (ztake i cs) = i) by (apply zlen_ztake; lia).
  assert (v' = r_shoff R) by (assert (zget vs i = Some v') by (rewrite Ev; apply zget_mid; lia); congruence). subst v'. cbn [app] in X2.
  inversion X2 as [| | | | |v3 ws3 ds3 Q1 Q2 Q3 Q4 Q5 Q6| | | | | | | | | | | | | | | | |c3 v3 C3 C4]; [congruence| |subst; discriminate].
  subst v3 w'. change (WNullSectionHeader :: ws3) with ([WNullSectionHeader] ++ ws3). rewrite hdr_app. cbn [app header_calls flat_map].
  rewrite Hh in Hk. apply zget_Some_lt in Hk as Bk.
  destruct (zget_lt_Some ws3 k) as (w & Hw); [lia|]. destruct (zget_lt_Some ds3 k) as (d & Hd); [lia|]. pose proof (Q4 _ _ _ _ Hk Hw Hd) as Hc.
  assert (E : header_calls ws3 = ws3).
  { assert (Q : forall i w, zget ws3 i = Some w -> header_calls [w] = [w]).
    { intros j y Hy. apply zget_Some_lt in Hy as By. destruct (zget_lt_Some (headers (ztake i cs)) j) as (h0 & H0); [lia|]. destruct (zget_lt_Some ds3 j) as (d0 & Hd0); [lia|].
      pose proof (Q4 _ _ _ _ H0 Hy Hd0) as Hq. inversion Hq; reflexivity. }
    clear - Q. induction ws3 as [|y l IH]; [reflexivity|]. change (y :: l) with ([y] ++ l) at 1. rewrite hdr_app. rewrite (Q 0 y (zget_0 _ _)), IH; [reflexivity|].
    intros j z Hz. apply (Q (j + 1)). apply zget_Some_lt in Hz as Bz. rewrite zget_S by lia. replace (j + 1 - 1) with j by lia. exact Hz. }
  unfold header_calls in E |- *. rewrite E. exists w. split; [exact Hw|]. destruct o; inversion Hc; subst; eauto.
Qed.
Lemma shndx_words nm x ws ds : blocks nm R x [] cs vs ws ds -> r_off R SShndx <> 0 -> zlen (x_shndx x) = r_num R SSymtab * 4 /\ r_num R SSymtab * 4 < 2 ^ 32.
Proof.
  intros B Ho. split; [|exact (shndx_small is64 e cs' vs R Ord Run Ho)]. destruct (shndx_in is64 e cs' vs R Ord Run Ho) as (a & b & Ec & Na).
  destruct (io_shndx _ Ord a b Ec) as (Hin & _). assert (Hin' : In (RSymtab SSymtab) cs) by (rewrite Ec; apply in_or_app; left; exact Hin).
  destruct (in_at cs' _ Hin' ltac:(discriminate)) as (i & Hi & Pi). destruct (here_at is64 e cs' vs R Ord Run i _ Hi Pi) as (b' & v & ra & r1 & H & Hv).
  destruct (blocks_at _ _ _ _ _ _ _ _ B i _ Hi) as (v' & w1 & w & w2 & d & _ & Hv' & _ & Bk). assert (v' = v) by congruence. subst v'. cbn [app] in Bk.
  destruct (here_num _ _ _ _ _ _ _ _ SSymtab H eq_refl) as (P2 & _). destruct (i_num _ _ (h_inv _ _ _ _ _ _ _ _ H) SSymtab (or_introl eq_refl)) as (I1 & I2).
  pose proof (b_pos _ _ _ _ _ _ _ _ H) as Pl. pose proof (h_after _ _ _ _ _ _ _ _ H) as (A0 & [(Z0 & -> & ->)|(Z0 & A & Er)]).
  - rewrite P2, Z0. inversion Bk; subst; try discriminate; try lia. match goal with K : _ = _ -> x_shndx x = _ |- _ => rewrite (K eq_refl) end. reflexivity.
  - rewrite Er in P2. proj_in P2. rewrite P2. inversion Bk; subst; try discriminate.
    + exfalso. destruct I1 as [I1|I1]; [lia|]. pose proof (symbols_nonneg SSymtab (ztake i cs)).
      assert (L0 : 0 <= r_num ra SSymtab * sym_size (r_is64 ra)) by (destruct (r_is64 ra); cbn [sym_size]; lia).
      assert (L1 : 0 <= r_len ra < 2 ^ 64) by lia. pose proof (reserved_ge _ _ _ _ (addr_good _) L1 L0 A) as (G & _). lia.
    + match goal with K : _ = _ -> x_shndx x = _ |- _ => rewrite (K eq_refl) end. rewrite zlen_app, zlen_write_u, (len_map _ 4) by (intro; apply zlen_write_u). destruct I1 as [I1|I1]; [lia|]. lia.
Qed.
Lemma table_header nm x ws ds i c s v d name addr n : blocks nm R x [] cs vs ws ds -> zget cs i = Some c -> part_of c = Some (PTable s) -> zget vs i = Some v -> v <> 0 ->
  zget ds i = Some d -> table_section is64 cs vs s v d (slot_header R s name addr n).
Proof.
  intros B Hi Pc Hv Nv Hd. assert (Pi : 0 < i).
  { apply zget_Some_lt in Hi as Bi. destruct (Z.eq_dec i 0) as [->|N]; [|lia]. rewrite zget_0 in Hi. injection Hi as <-. discriminate. }
  destruct (here_at is64 e cs' vs R Ord Run i _ Hi Pi) as (b & v' & ra & r1 & H & Hv'). assert (v' = v) by congruence. subst v'.
  destruct (blocks_at _ _ _ _ _ _ _ _ B i _ Hi) as (v' & w1 & w & w2 & d' & _ & Hv2 & Hd' & Bk). assert (v' = v) by congruence. assert (d' = d) by congruence. subst v' d'. cbn [app] in Bk.
  destruct (run_const _ _ _ _ _ Run) as (K1 & K2).
  assert (G : r_off R s = v /\ sh_size (slot_header R s name addr n) = zlen d).
  { apply (table_at nm cs (ztake i cs) c v b ra r1 R x w d s name addr n H Pc Bk Nv). intros ->. apply (shndx_words nm x ws ds B).
    pose proof (here_off _ _ _ _ _ _ _ _ SShndx H Pc) as P1. pose proof (b_call _ _ _ _ _ _ _ _ H) as C. pose proof (h_after _ _ _ _ _ _ _ _ H) as A.
    destruct c; cbn [part_of] in Pc; try discriminate; cbn [call_ok] in C; try (injection Pc as ->; destruct C as [C|[C|C]]; try discriminate; destruct C as [C|C]; [discriminate|destruct C]).
    - injection Pc as ->. destruct C as [C|[C|[]]]; discriminate.
    - destruct A as (A0 & [(_ & Q & _)|(_ & _ & Er)]); [congruence|]. rewrite Er in P1. proj_in P1. rewrite upd_same in P1. congruence. }
  destruct G as (G1 & G2). constructor.
  - destruct s; reflexivity.
  - destruct s; reflexivity.
  - rewrite <- G1. destruct s; reflexivity.
  - exact G2.
  - destruct s; cbn [table_link slot_header sh_link]; try reflexivity; apply index_is; reflexivity.
  - rewrite <- K1. destruct s; cbn [table_entry slot_header sh_entsize]; try reflexivity; destruct (r_is64 R); reflexivity.
Qed.
End Tables.
