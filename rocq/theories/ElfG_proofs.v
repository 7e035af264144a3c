(** Proofs about the unified ELF reader: imports and exports, UTF-8, compression, debug links. *)
From Verif Require Import Core_proofs Str_proofs Util_proofs Hash_proofs Rel_proofs Note_proofs Ver_proofs File_proofs Elf_proofs ElfR_proofs Pod_proofs.
From Verif Require PeI_proofs PeX_proofs Ar_spec Ar_proofs ArSym_proofs CoffR_proofs.
From Verif Require Import Obj_model ElfF_spec ElfF_proofs.

(** * Imports and exports *)
(** the loop of both iterators *)
Fixpoint scan {A} (step : Z -> sym -> option (out (option A))) (l : list sym) (fuel : nat) (i : Z) : out (option A) * Z :=
  match zget l i with
  | None => (Ok None, i)
  | Some s => match fuel with
              | O => (Panic, i)
              | Datatypes.S fuel => match step i s with None => scan step l fuel (i + 1) | Some r => (r, i + 1) end
              end
  end.
Definition gives {A} (step : Z -> sym -> option (out (option A))) (p : Z * sym) (r : list (option A)) : Prop :=
  match step (fst p) (snd p) with None => r = [] | Some (Ok (Some x)) => r = [Some x] | Some Err => r = [None] | _ => False end.
Lemma Forall2_cons_inv' {X Y} (R : X -> Y -> Prop) x l rs : Forall2 R (x :: l) rs -> exists r rs', rs = r :: rs' /\ R x r /\ Forall2 R l rs'.
Proof. intros H. inversion H; subst. eauto. Qed.
Section Scan.
Context {A : Type} (step : Z -> sym -> option (out (option A))) (l : list sym).
Lemma scan_end pre fuel : l = pre -> scan step l fuel (zlen pre) = (Ok None, zlen pre).
Proof. intros ->. destruct fuel; cbn [scan]; replace (zget pre (zlen pre)) with (@None sym) by (symmetry; apply zget_None; lia); reflexivity. Qed.
Lemma scan_fuel suf : forall pre f1 f2, l = pre ++ suf -> (length suf <= f1)%nat -> (length suf <= f2)%nat -> scan step l f1 (zlen pre) = scan step l f2 (zlen pre).
Proof.
  induction suf as [|x suf IH]; intros pre f1 f2 E L1 L2.
  - rewrite app_nil_r in E. rewrite !scan_end by exact E. reflexivity.
  - cbn [length] in *. destruct f1 as [|f1]; [lia|]. destruct f2 as [|f2]; [lia|]. cbn [scan]. rewrite E. rewrite zget_mid by reflexivity. rewrite <- E.
    destruct (step (zlen pre) x); [reflexivity|]. replace (zlen pre + 1) with (zlen (pre ++ [x])) by (rewrite zlen_app; reflexivity).
    apply IH; [rewrite <- app_assoc; exact E|lia|lia].
Qed.
Lemma scan_results suf : forall pre rs, l = pre ++ suf -> Forall2 (gives step) (num (length pre) suf) rs ->
  Ar_spec.results (scan step l (length l)) (zlen pre) (concat rs).
Proof.
  induction suf as [|x suf IH]; intros pre rs E H.
  - inversion H as [Hn Hr|]. cbn [concat]. eapply Ar_spec.res_end. rewrite app_nil_r in E. apply scan_end. exact E.
  - cbn [length seq map combine] in H. apply Forall2_cons_inv' in H as (r & rs' & -> & G & H1). cbn [concat]. specialize (IH (pre ++ [x]) rs').
    rewrite <- app_assoc in IH. specialize (IH E). rewrite app_length in IH. cbn [length] in IH. rewrite Nat.add_1_r in IH. specialize (IH H1).
    assert (S1 : zlen pre + 1 = zlen (pre ++ [x])) by (rewrite zlen_app; reflexivity).
    assert (N : scan step l (length l) (zlen pre) = match step (zlen pre) x with None => scan step l (length l) (zlen (pre ++ [x])) | Some r => (r, zlen (pre ++ [x])) end).
    { rewrite <- S1. rewrite (scan_fuel (x :: suf) pre (length l) (S (length l)) E) by (rewrite E, app_length; cbn [length]; lia). cbn [scan].
      rewrite E at 1. rewrite zget_mid by reflexivity. reflexivity. }
    unfold gives in G. cbn [fst snd] in G. change (Z.of_nat (length pre)) with (zlen pre) in G. destruct (step (zlen pre) x) as [[[y|]| |]|]; try contradiction; subst r; cbn [app].
    + eapply Ar_spec.res_ok; [exact N|exact IH].
    + eapply Ar_spec.res_err; [exact N|exact IH].
    + eapply PeX_proofs.results_same; [|exact IH]. exact N.
Qed.
End Scan.
Lemma scan_all {A} (step : Z -> sym -> option (out (option A))) (t : symtab) rs : Forall2 (gives step) (numbered t) rs ->
  Ar_spec.results (scan step (smt_symbols t) (length (smt_symbols t))) 1 (concat rs).
Proof.
  intros H. unfold numbered in H. destruct (smt_symbols t) as [|x l].
  - inversion H; subst. eapply Ar_spec.res_end. reflexivity.
  - rewrite tl_num in H. exact (scan_results step (x :: l) l [x] rs eq_refl H).
Qed.
Lemma gives_all {A} (step : Z -> sym -> option (out (option A))) (P : Z -> sym -> list (option A) -> Prop) (l : list (Z * sym)) :
  (forall p, In p l -> exists r, P (fst p) (snd p) r /\ gives step p r) -> exists rs, Forall2 (fun p r => P (fst p) (snd p) r) l rs /\ Forall2 (gives step) l rs.
Proof.
  induction l as [|p l IH]; intros H; [exists []; split; constructor|]. destruct (H p) as (r & A1 & A2); [left; reflexivity|].
  destruct IH as (rs & B1 & B2); [intros q Hq; apply H; right; exact Hq|]. exists (r :: rs). split; constructor; assumption.
Qed.
Lemma results_ext {S A} (f g : S -> out (option A) * S) st L : (forall s, f s = g s) -> Ar_spec.results f st L -> Ar_spec.results g st L.
Proof. intros E H. induction H; [eapply Ar_spec.res_end|eapply Ar_spec.res_ok|eapply Ar_spec.res_err]; rewrite <- ?E; eassumption. Qed.

Definition import_step (v : option vtable) (t : symtab) (index : Z) (s : sym) : option (out (option import)) :=
  if negb (sym_undefined s) then None else
  match symbol_name t s with
  | Err => Some Err | Panic => Some Panic
  | Ok [] => None
  | Ok name => Some
    (version <- match v with Some v => vt_version v (versym_index (vt_version_index v index)) | None => Ok None end ;;
     Ok (Some {| im_library := match version with Some x => match v_file x with Some l => l | None => [] end | None => [] end;
                 im_name := name; im_weak := st_bind s =? 2; im_info := st_info s; im_other := st_other s; im_version := option_map v_name version |}))
  end.
Lemma import_scan v t fuel i : import_loop fuel v t i = scan (import_step v t) (smt_symbols t) fuel i.
Proof.
  revert i. induction fuel as [|fuel IH]; intros i; cbn [import_loop scan]; destruct (zget _ i) as [s|]; try reflexivity.
  unfold import_step. destruct (negb (sym_undefined s)); [apply IH|]. destruct (symbol_name t s) as [[|x n]| |]; try reflexivity. apply IH.
Qed.
Lemma symbol_name_np t s : symbol_name t s <> Panic.
Proof. unfold symbol_name, stb_get. apply strtab_get_no_panic. Qed.
Lemma vt_version_np v i : vt_version v i <> Panic.
Proof. unfold vt_version. destruct (is_special i); [discriminate|]. destruct (zget _ i) as [x|]; [destruct (v_valid x)|]; discriminate. Qed.
Lemma version_idx v i : versym_index (vt_version_index v i) = match zget (vt_symbols v) i with Some x => x mod 2 ^ 15 | None => 1 end.
Proof. unfold versym_index, vt_version_index. change 32767 with (Z.ones 15). rewrite Z.land_ones by lia. destruct (zget _ i); [reflexivity|reflexivity]. Qed.
Lemma version_of_iff vs i v : version_of vs i v <-> match vs with Some t => vt_version t (versym_index (vt_version_index t i)) | None => Ok None end = Ok v.
Proof. unfold version_of. destruct vs as [t|]; [rewrite version_idx; reflexivity|]. split; congruence. Qed.
Lemma import_gives vs t i s : sym_ok s -> exists r, import_at vs t i s r /\ gives (import_step vs t) (i, s) r.
Proof.
  intros K. destruct (bind_type s K) as (B & _). unfold gives. cbn [fst snd]. unfold import_step. unfold sym_undefined.
  destruct (Z.eqb_spec (st_shndx s) 0) as [E|E]; cbn [negb]; [|exists []; split; [apply ia_defined; exact E|reflexivity]].
  destruct (symbol_name t s) as [[|x n]| |] eqn:N.
  - exists []. split; [apply ia_unnamed; assumption|reflexivity].
  - pose proof (version_of_iff vs i) as V. destruct (match vs with Some v => _ | None => _ end) as [v| |] eqn:W; cbn [bind].
    + eexists. split; [|reflexivity]. eapply ia_import; cbn [im_name im_version im_library im_weak im_info im_other]; try first [exact E|exact N|discriminate|reflexivity].
      all: first [apply V; reflexivity|rewrite Z.eqb_eq, B; reflexivity|reflexivity].
    + exists [None]. split; [|reflexivity]. eapply ia_badversion; [exact E|exact N|discriminate|]. intros v H. apply V in H. discriminate.
    + exfalso. destruct vs; [exact (vt_version_np _ _ W)|discriminate].
  - exists [None]. split; [apply ia_badname; assumption|reflexivity].
  - exfalso. exact (symbol_name_np _ _ N).
Qed.
Lemma in_numbered t i s : In (i, s) (numbered t) -> In s (smt_symbols t).
Proof. unfold numbered. rewrite in_tl_num. intros (_ & H). exact (zget_In _ _ _ H). Qed.
Lemma imports_ok vs t : Forall sym_ok (smt_symbols t) -> exists rs, Forall2 (fun p r => import_at vs t (fst p) (snd p) r) (numbered t) rs /\
  Ar_spec.results (import_next vs t) 1 (concat rs).
Proof.
  intros K. destruct (gives_all (import_step vs t) (import_at vs t) (numbered t)) as (rs & A & B).
  { intros (i & s) I. apply import_gives. rewrite Forall_forall in K. apply K. exact (in_numbered _ _ _ I). }
  exists rs. split; [exact A|]. eapply results_ext; [|exact (scan_all _ _ _ B)]. intro i. symmetry. apply import_scan.
Qed.

Definition export_step (v : option vtable) (t : symtab) (index : Z) (s : sym) : option (out (option export)) :=
  match export_target s with
  | None => None
  | Some target => Some
    (name <- symbol_name t s ;;
     ' (version, hidden) <- match v with
       | Some v => let vi := vt_version_index v index in x <- vt_version v (versym_index vi) ;; Ok (option_map v_name x, versym_is_hidden vi)
       | None => Ok (None, false)
       end ;;
     Ok (Some {| ex_name := name; ex_target := target; ex_weak := st_bind s =? 2; ex_info := st_info s; ex_other := st_other s;
                 ex_version := version; ex_hidden := hidden |}))
  end.
Lemma export_scan v t fuel i : export_loop fuel v t i = scan (export_step v t) (smt_symbols t) fuel i.
Proof.
  revert i. induction fuel as [|fuel IH]; intros i; cbn [export_loop scan]; destruct (zget _ i) as [s|]; try reflexivity.
  unfold export_step. destruct (export_target s); [reflexivity|apply IH].
Qed.
Lemma export_target_iff s x : sym_ok s -> exported s x <-> export_target s = Some x.
Proof.
  intros K. destruct (bind_type s K) as (B & T & _ & Bb & Tb). destruct K as (_ & _ & U). unfold u16_ok in U.
  unfold export_target, ey_local, shn_special, SHN_LORESERVE, SHN_XINDEX. rewrite B, T. cbv zeta. split.
  - intros H. inversion H as [H1 H2 H3|H1 H2 H3|H1 H2 H3|H1 H2 H3]; subst x; cbn [In] in *;
    repeat match goal with |- context [?a =? ?b] => destruct (Z.eqb_spec a b) end; repeat match goal with |- context [?a <=? ?b] => destruct (Z.leb_spec a b) end;
    cbn [orb andb negb]; try reflexivity; exfalso; lia.
  - intros H. repeat match type of H with context [?a =? ?b] => destruct (Z.eqb_spec a b) end; repeat match type of H with context [?a <=? ?b] => destruct (Z.leb_spec a b) end;
    cbn [orb andb negb] in H; try discriminate H; try (exfalso; lia);
    match type of H with Some ?y = _ => assert (y = x) by congruence; subst x; clear H end;
    first [apply et_address; cbn [In]; lia|apply et_absolute; cbn [In]; lia|apply et_tls; cbn [In]; lia|apply et_resolver; cbn [In]; lia].
Qed.
Lemma hidden_iff vs i : version_hidden vs i (match vs with Some v => versym_is_hidden (vt_version_index v i) | None => false end).
Proof.
  unfold version_hidden. destruct vs as [v|]; [|reflexivity]. unfold versym_is_hidden, vt_version_index. change 32768 with (2 ^ 15).
  change (Z.land ?x (2 ^ 15) =? 2 ^ 15) with (has_flags x (2 ^ 15)). rewrite has_flags_bit by lia. destruct (zget _ i); reflexivity.
Qed.
Lemma export_gives vs t i s : sym_ok s -> exists r, export_at vs t i s r /\ gives (export_step vs t) (i, s) r.
Proof.
  intros K. pose proof (export_target_iff s) as X. destruct (bind_type s K) as (B & _). unfold gives. cbn [fst snd]. unfold export_step.
  destruct (export_target s) as [x|]; [|exists []; split; [apply xa_skip; intros x H; apply X in H; [discriminate|exact K]|reflexivity]].
  assert (EX : exported s x) by (apply X; [exact K|reflexivity]).
  destruct (symbol_name t s) as [n| |] eqn:N; cbn [bind].
  - pose proof (version_of_iff vs i) as V. pose proof (hidden_iff vs i) as HI. destruct vs as [vt|]; cbv zeta in *.
    + destruct (vt_version vt _) as [v| |] eqn:W; cbn [bind].
      * eexists. split; [|reflexivity]. eapply xa_export; cbn [ex_name ex_version ex_target ex_hidden ex_weak ex_info ex_other]; try first [exact EX|exact N|exact HI|reflexivity].
        all: first [apply V; reflexivity|rewrite Z.eqb_eq, B; reflexivity|reflexivity].
      * exists [None]. split; [|reflexivity]. eapply xa_badversion; [exact EX|exact N|]. intros v H. apply V in H. discriminate.
      * exfalso. exact (vt_version_np _ _ W).
    + eexists. split; [|reflexivity]. eapply xa_export with (v := None); cbn [ex_name ex_version ex_target ex_hidden ex_weak ex_info ex_other]; try first [exact EX|exact N|exact HI|reflexivity].
      rewrite Z.eqb_eq, B. reflexivity.
  - exists [None]. split; [eapply xa_badname; eassumption|reflexivity].
  - exfalso. exact (symbol_name_np _ _ N).
Qed.
Lemma exports_ok vs t : Forall sym_ok (smt_symbols t) -> exists rs, Forall2 (fun p r => export_at vs t (fst p) (snd p) r) (numbered t) rs /\
  Ar_spec.results (export_next vs t) 1 (concat rs).
Proof.
  intros K. destruct (gives_all (export_step vs t) (export_at vs t) (numbered t)) as (rs & A & B).
  { intros (i & s) I. apply export_gives. rewrite Forall_forall in K. apply K. exact (in_numbered _ _ _ I). }
  exists rs. split; [exact A|]. eapply results_ext; [|exact (scan_all _ _ _ B)]. intro i. symmetry. apply export_scan.
Qed.

(** * UTF-8 *)
Lemma utf8_cont_iff lo hi y : utf8_cont lo hi y = true <-> lo <= y <= hi.
Proof. unfold utf8_cont. rewrite Bool.andb_true_iff, !Z.leb_le. reflexivity. Qed.
Lemma utf8_cont_t lo hi y : lo <= y <= hi -> utf8_cont lo hi y = true.
Proof. apply utf8_cont_iff. Qed.
Lemma utf8_cont_f lo hi y : y < lo \/ hi < y -> utf8_cont lo hi y = false.
Proof. intros H. destruct (utf8_cont lo hi y) eqn:E; [|reflexivity]. apply utf8_cont_iff in E. lia. Qed.
Lemma utf8_1 x r : x < 128 -> utf8_valid (x :: r) = utf8_valid r.
Proof. intros A. cbn [utf8_valid]. destruct (Z.ltb_spec x 128); [reflexivity|lia]. Qed.
Lemma utf8_2 x y r : 194 <= x <= 223 -> 128 <= y <= 191 -> utf8_valid (x :: y :: r) = utf8_valid r.
Proof. intros A B. cbn [utf8_valid]. destruct (Z.ltb_spec x 128); [lia|]. rewrite (utf8_cont_t 194) by lia. rewrite (utf8_cont_t 128) by lia. reflexivity. Qed.
Lemma utf8_3 x y z r : 224 <= x <= 239 -> (if x =? 224 then 160 else 128) <= y <= (if x =? 237 then 159 else 191) -> 128 <= z <= 191 -> utf8_valid (x :: y :: z :: r) = utf8_valid r.
Proof.
  intros A B C. cbn [utf8_valid]. destruct (Z.ltb_spec x 128); [lia|]. rewrite (utf8_cont_f 194) by lia. rewrite (utf8_cont_t 224) by lia.
  rewrite (utf8_cont_t _ _ y) by exact B. rewrite (utf8_cont_t _ _ z) by exact C. reflexivity.
Qed.
Lemma utf8_4 x y z w r : 240 <= x <= 244 -> (if x =? 240 then 144 else 128) <= y <= (if x =? 244 then 143 else 191) -> 128 <= z <= 191 -> 128 <= w <= 191 ->
  utf8_valid (x :: y :: z :: w :: r) = utf8_valid r.
Proof.
  intros A B C D. cbn [utf8_valid]. destruct (Z.ltb_spec x 128); [lia|]. rewrite (utf8_cont_f 194) by lia. rewrite (utf8_cont_f 224) by lia. rewrite (utf8_cont_t 240) by lia.
  rewrite (utf8_cont_t _ _ y) by exact B. rewrite (utf8_cont_t _ _ z) by exact C. rewrite (utf8_cont_t _ _ w) by exact D. reflexivity.
Qed.
Lemma utf8_step c r : scalar c -> utf8_valid (utf8_char c ++ r) = utf8_valid r.
Proof.
  intros S. unfold utf8_char. unfold scalar in S.
  destruct (Z.ltb_spec c 128) as [L|L]. { apply utf8_1. exact L. }
  assert (M0 : 0 <= c mod 64 < 64) by (apply Z.mod_pos_bound; lia). assert (C : c = 64 * (c / 64) + c mod 64) by (apply Z.div_mod; lia).
  destruct (Z.ltb_spec c 2048) as [L1|L1]; [cbn [app]; apply utf8_2; lia|].
  assert (D : c / 64 = 64 * (c / 64 / 64) + c / 64 mod 64) by (apply Z.div_mod; lia). assert (M1 : 0 <= c / 64 mod 64 < 64) by (apply Z.mod_pos_bound; lia).
  assert (A : c / 4096 = c / 64 / 64) by (rewrite Z.div_div by lia; reflexivity).
  destruct (Z.ltb_spec c 65536) as [L2|L2]; cbn [app].
  - rewrite A. apply utf8_3; [lia| |lia]. destruct (Z.eqb_spec (224 + c / 64 / 64) 224), (Z.eqb_spec (224 + c / 64 / 64) 237); lia.
  - assert (D2 : c / 64 / 64 = 64 * (c / 64 / 64 / 64) + c / 64 / 64 mod 64) by (apply Z.div_mod; lia). assert (M2 : 0 <= c / 64 / 64 mod 64 < 64) by (apply Z.mod_pos_bound; lia).
    assert (A2 : c / 262144 = c / 64 / 64 / 64) by (rewrite !Z.div_div by lia; reflexivity). rewrite A2, A.
    apply utf8_4; [lia| |lia|lia]. destruct (Z.eqb_spec (240 + c / 64 / 64 / 64) 240), (Z.eqb_spec (240 + c / 64 / 64 / 64) 244); lia.
Qed.
Lemma utf8_of2 x y : 194 <= x <= 223 -> 128 <= y <= 191 -> exists c, scalar c /\ utf8_char c = [x; y].
Proof.
  intros A B. exists ((x - 192) * 64 + (y - 128)). set (c := _ * _ + _). assert (D : c / 64 = x - 192) by (unfold c; rewrite Z.add_comm, Z.div_add by lia; rewrite Z.div_small by lia; lia).
  assert (M : c mod 64 = y - 128) by (unfold c; rewrite Z.add_comm, Z.mod_add by lia; apply Z.mod_small; lia).
  assert (128 <= c < 2048) by lia. split; [unfold scalar; lia|]. unfold utf8_char. destruct (Z.ltb_spec c 128); [lia|]. destruct (Z.ltb_spec c 2048); [|lia]. rewrite D, M.
  repeat f_equal; lia.
Qed.
Lemma utf8_of3 x y z : 224 <= x <= 239 -> (if x =? 224 then 160 else 128) <= y <= (if x =? 237 then 159 else 191) -> 128 <= z <= 191 -> exists c, scalar c /\ utf8_char c = [x; y; z].
Proof.
  intros A B C. set (q := (x - 224) * 64 + (y - 128)). exists (q * 64 + (z - 128)). set (c := _ * _ + _).
  assert (B' : 128 <= y <= 191) by (destruct (x =? 224), (x =? 237); lia).
  assert (D : c / 64 = q) by (unfold c; rewrite Z.add_comm, Z.div_add by lia; rewrite Z.div_small by lia; lia).
  assert (M : c mod 64 = z - 128) by (unfold c; rewrite Z.add_comm, Z.mod_add by lia; apply Z.mod_small; lia).
  assert (D2 : q / 64 = x - 224) by (unfold q; rewrite Z.add_comm, Z.div_add by lia; rewrite Z.div_small by lia; lia).
  assert (M2 : q mod 64 = y - 128) by (unfold q; rewrite Z.add_comm, Z.mod_add by lia; apply Z.mod_small; lia).
  assert (E : c / 4096 = q / 64) by (rewrite <- D; rewrite Z.div_div by lia; reflexivity).
  assert (R : 2048 <= c < 65536 /\ scalar c). { unfold scalar, c, q. destruct (Z.eqb_spec x 224), (Z.eqb_spec x 237); lia. }
  destruct R as (R & S). split; [exact S|]. unfold utf8_char. destruct (Z.ltb_spec c 128); [lia|]. destruct (Z.ltb_spec c 2048); [lia|]. destruct (Z.ltb_spec c 65536); [|lia].
  rewrite E, D2, D, M, M2. repeat f_equal; lia.
Qed.
Lemma utf8_of4 x y z w : 240 <= x <= 244 -> (if x =? 240 then 144 else 128) <= y <= (if x =? 244 then 143 else 191) -> 128 <= z <= 191 -> 128 <= w <= 191 ->
  exists c, scalar c /\ utf8_char c = [x; y; z; w].
Proof.
  intros A B C W. set (q2 := (x - 240) * 64 + (y - 128)). set (q := q2 * 64 + (z - 128)). exists (q * 64 + (w - 128)). set (c := _ * _ + _).
  assert (B' : 128 <= y <= 191) by (destruct (x =? 240), (x =? 244); lia).
  assert (D : c / 64 = q) by (unfold c; rewrite Z.add_comm, Z.div_add by lia; rewrite Z.div_small by lia; lia).
  assert (M : c mod 64 = w - 128) by (unfold c; rewrite Z.add_comm, Z.mod_add by lia; apply Z.mod_small; lia).
  assert (D1 : q / 64 = q2) by (unfold q; rewrite Z.add_comm, Z.div_add by lia; rewrite Z.div_small by lia; lia).
  assert (M1 : q mod 64 = z - 128) by (unfold q; rewrite Z.add_comm, Z.mod_add by lia; apply Z.mod_small; lia).
  assert (D2 : q2 / 64 = x - 240) by (unfold q2; rewrite Z.add_comm, Z.div_add by lia; rewrite Z.div_small by lia; lia).
  assert (M2 : q2 mod 64 = y - 128) by (unfold q2; rewrite Z.add_comm, Z.mod_add by lia; apply Z.mod_small; lia).
  assert (E : c / 4096 = q2) by (rewrite <- D1, <- D; rewrite Z.div_div by lia; reflexivity).
  assert (E2 : c / 262144 = q2 / 64) by (rewrite <- D1, <- D; rewrite !Z.div_div by lia; reflexivity).
  assert (R : 65536 <= c /\ scalar c). { unfold scalar, c, q, q2. destruct (Z.eqb_spec x 240), (Z.eqb_spec x 244); lia. }
  destruct R as (R & S). split; [exact S|]. unfold utf8_char. destruct (Z.ltb_spec c 128); [lia|]. destruct (Z.ltb_spec c 2048); [lia|]. destruct (Z.ltb_spec c 65536); [lia|].
  rewrite E2, E, D2, D, M, M1, M2. repeat f_equal; lia.
Qed.
Lemma utf8_cons b c r : scalar c -> b = utf8_char c ++ r -> utf8 r -> utf8 b.
Proof. intros S -> (cs & A & ->). exists (c :: cs). split; [constructor; assumption|reflexivity]. Qed.
Lemma utf8_iff b : bytes_ok b -> utf8_valid b = true <-> utf8 b.
Proof.
  intros K. split.
  - remember (length b) as n eqn:E. assert (L : (length b <= n)%nat) by lia. clear E. revert b K L. induction n as [|n IH]; intros b K L H.
    { destruct b; [|cbn in L; lia]. exists []. split; [constructor|reflexivity]. }
    destruct b as [|x r]; [exists []; split; [constructor|reflexivity]|]. cbn [utf8_valid length] in *. apply Forall_cons_iff in K as (Kx & K).
    destruct (Z.ltb_spec x 128) as [X|X].
    { apply (utf8_cons _ x r); [unfold scalar; unfold byte_ok in Kx; lia| |apply IH; [exact K|lia|exact H]]. unfold utf8_char. destruct (Z.ltb_spec x 128); [reflexivity|lia]. }
    destruct (utf8_cont 194 223 x) eqn:C2.
    { apply utf8_cont_iff in C2. destruct r as [|y r]; [discriminate|]. apply Bool.andb_true_iff in H as (H1 & H). apply utf8_cont_iff in H1. destruct (utf8_of2 x y C2 H1) as (c & S & Ec).
      apply (utf8_cons _ c r); [exact S|rewrite Ec; reflexivity|]. apply Forall_cons_iff in K as (_ & K). apply IH; [exact K|cbn in L; lia|exact H]. }
    destruct (utf8_cont 224 239 x) eqn:C3.
    { apply utf8_cont_iff in C3. destruct r as [|y [|z r]]; try discriminate. apply Bool.andb_true_iff in H as (H1 & H). apply Bool.andb_true_iff in H1 as (H1 & H2).
      apply utf8_cont_iff in H1, H2. destruct (utf8_of3 x y z C3 H1 H2) as (c & S & Ec).
      apply (utf8_cons _ c r); [exact S|rewrite Ec; reflexivity|]. apply Forall_cons_iff in K as (_ & K). apply Forall_cons_iff in K as (_ & K). apply IH; [exact K|cbn in L; lia|exact H]. }
    destruct (utf8_cont 240 244 x) eqn:C4; [|discriminate].
    apply utf8_cont_iff in C4. destruct r as [|y [|z [|w r]]]; try discriminate. apply Bool.andb_true_iff in H as (H1 & H). apply Bool.andb_true_iff in H1 as (H1 & H3). apply Bool.andb_true_iff in H1 as (H1 & H2).
    apply utf8_cont_iff in H1, H2, H3. destruct (utf8_of4 x y z w C4 H1 H2 H3) as (c & S & Ec).
    apply (utf8_cons _ c r); [exact S|rewrite Ec; reflexivity|]. do 3 apply Forall_cons_iff in K as (_ & K). apply IH; [exact K|cbn in L; lia|exact H].
  - intros (cs & S & ->). clear K. induction S as [|c cs Hc S IH]; [reflexivity|]. cbn [map concat]. rewrite utf8_step by exact Hc. exact IH.
Qed.
