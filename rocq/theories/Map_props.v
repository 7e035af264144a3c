(** Property theorems C15, C16 (src/read/symbol_map.rs). *)
From Verif Require Import Map_spec Map_proofs.

(** * C15.  Whatever binary search std uses (it only has to meet its documented contract). *)
Theorem C15_symbols_sorted : forall T (address : T -> Z) l,
  Permutation l (sm_new address l) /\
  StronglySorted (fun x y => address x <= address y) (sm_new address l) /\
  (forall a, filter (fun y => address y =? a) (sm_new address l) = filter (fun y => address y =? a) l).
Proof. intros. exact (conj (sm_new_perm _ _) (conj (sm_new_sorted _ _) (fun a => sm_new_stable _ a l))). Qed.
Print Assumptions C15_symbols_sorted.

Theorem C15_before : forall T bs (address : T -> Z) l a, bs_contract bs ->
  match sm_before bs address (sm_new address l) a with
  | Some s => In s l /\ address s <= a /\ (forall t, In t l -> address t <= a -> address t <= address s)
  | None => forall t, In t l -> a < address t
  end.
Proof. intros. apply sm_lookup. assumption. Qed.
Print Assumptions C15_before.

Theorem C15_containing : forall T bs (address size : T -> Z) l a, bs_contract bs -> u64_ok a ->
  Forall (fun t => 0 <= address t) l ->
  sm_containing bs address size (sm_new address l) a =
  match sm_before bs address (sm_new address l) a with
  | Some s => if (size s =? 0) || ((address s <=? a) && (a <? address s + size s)) then Some s else None
  | None => None
  end.
Proof. intros. apply sm_contains; assumption. Qed.
Print Assumptions C15_containing.

(** A binary search meeting the contract exists (a linear one is enough). *)
Fixpoint lin_search (i : Z) (keys : list Z) (k : Z) : found :=
  match keys with
  | [] => Missing i
  | x :: keys => if x =? k then Found i else if k <? x then Missing i else lin_search (i + 1) keys k
  end.
Example C15_bs_exists : bs_contract (lin_search 0).
Proof.
  intros keys k Hs.
  enough (H : forall pre, StronglySorted Z.le (pre ++ keys) -> Forall (fun x => x < k) pre ->
    match lin_search (zlen pre) keys k with
    | Found i => zget (pre ++ keys) i = Some k
    | Missing i => 0 <= i <= zlen (pre ++ keys) /\ Forall (fun x => x < k) (ztake i (pre ++ keys)) /\
                   Forall (fun x => k < x) (zdrop i (pre ++ keys))
    end).
  { apply (H []); [exact Hs|constructor]. }
  clear Hs. induction keys as [|x keys IH]; intros pre Hs Hp; cbn [lin_search].
  - rewrite app_nil_r, ztake_all, zdrop_all by lia. pose proof (zlen_nonneg pre). repeat split; auto; lia.
  - pose proof (zlen_nonneg pre). pose proof (zlen_nonneg keys).
    destruct (Z.eqb_spec x k) as [E|E].
    + rewrite zget_app2 by lia. rewrite Z.sub_diag, zget_0. congruence.
    + destruct (Z.ltb_spec k x).
      * rewrite ztake_app, zdrop_app, zlen_app, zlen_cons. split; [lia|]. split; [exact Hp|].
        apply Str_proofs.StronglySorted_app_r in Hs. inversion Hs as [|? ? _ Hf]; subst.
        constructor; [exact H1|]. eapply Forall_impl; [|exact Hf]. intros y Hy. cbn in Hy. lia.
      * specialize (IH (pre ++ [x])). rewrite <- app_assoc in IH. cbn [app] in IH.
        replace (zlen (pre ++ [x])) with (zlen pre + 1) in IH by (rewrite zlen_app; reflexivity).
        apply IH; [exact Hs|]. apply Forall_app. split; [exact Hp|]. constructor; [lia|constructor].
Qed.
Example C15_ex :
  let m := sm_new fst [(30, 4); (10, 0); (20, 5); (20, 6)] in
  m = [(10, 0); (20, 5); (20, 6); (30, 4)] /\
  sm_before (lin_search 0) fst m 9 = None /\ sm_before (lin_search 0) fst m 29 = Some (20, 6) /\
  sm_containing (lin_search 0) fst snd m 29 = None /\ sm_containing (lin_search 0) fst snd m 19 = Some (10, 0) /\
  sm_containing (lin_search 0) fst snd m 33 = Some (30, 4) /\ sm_containing (lin_search 0) fst snd m 34 = None.
Proof. ex. Qed.

(** * C16 *)
(** One entry per address, in address order. *)
Theorem C16_one_per_address : forall o, StronglySorted (fun x y => mn_address x < mn_address y) (mb_build o).
Proof. exact build_sorted. Qed.
Print Assumptions C16_one_per_address.

(** Unless everything sits at the very last address, the entries are exactly: for each address the best
    candidate there, under its own name, with its own size or, when that is 0, the distance to the next
    candidate/section end/csect end (0 when there is none). *)
Theorem C16_entries : forall o, mobj_ok o -> (exists x, bound o x /\ x <> 2 ^ 64 - 1) -> forall e,
  In e (mb_build o) <-> exists s n, candidate o s n /\ best o s /\ mn_address e = ms_address s /\
    mn_name e = n /\ guessed o s (mn_size e).
Proof. exact build_entries. Qed.
Print Assumptions C16_entries.

(** The excluded corner: then the map is empty, because the deduplication loop starts from the sentinel
    previous address !0.  So "every candidate address has an entry" is false there. *)
Theorem C16_top_address_exact : forall o, mobj_ok o -> (forall x, bound o x -> x = 2 ^ 64 - 1) -> mb_build o = [].
Proof. exact build_all_top. Qed.
Print Assumptions C16_top_address_exact.
Definition top_sym := {| ms_def := true; ms_name := Some [97]; ms_address := 2 ^ 64 - 1; ms_size := 0;
  ms_kind := KText; ms_scope := ScDynamic; ms_index := 0; ms_xcoff_label := None |}.
Definition top_obj := {| mo_symbols := Some [top_sym]; mo_dynamic := None; mo_sections := [] |}.
Theorem C16_top_address_refuted : exists o s n, mobj_ok o /\ candidate o s n /\ best o s /\ mb_build o = [].
Proof.
  exists top_obj, top_sym, [97]. split; [|split; [|split]].
  - split; [|constructor]. intros t [H|H]; inversion H; subst. split; [ex|].
    cbn. constructor; [intros []|constructor].
  - split; [exists [top_sym]; cbn; auto|]. cbn. repeat split; auto. discriminate.
  - intros t n [(l & [H|[H _]] & Hin) _] _; inversion H; subst. destruct Hin as [<-|[]]. cbn. lia.
  - vm_compute. reflexivity.
Qed.
Print Assumptions C16_top_address_refuted.

Definition mk_sym a sz k sc i nm := {| ms_def := true; ms_name := Some nm; ms_address := a; ms_size := sz;
  ms_kind := k; ms_scope := sc; ms_index := i; ms_xcoff_label := None |}.
Definition c16_obj := {| mo_symbols := Some [mk_sym 16 0 KText ScLinkage 1 [97]; mk_sym 16 0 KText ScDynamic 2 [98];
     mk_sym 16 8 KUnknown ScDynamic 3 [99]; mk_sym 32 4 KData ScCompilation 4 [100]; mk_sym 40 0 KData ScUnknown 5 [101];
     mk_sym 44 0 KOther ScUnknown 6 [102]]; mo_dynamic := None; mo_sections := [(16, 40); (64, 8)] |}.
Example C16_ex : mb_build c16_obj =
  [ {| mn_address := 16; mn_size := 16; mn_name := [98] |}; {| mn_address := 32; mn_size := 4; mn_name := [100] |};
    {| mn_address := 40; mn_size := 16; mn_name := [101] |} ].
Proof. vm_compute. reflexivity. Qed.
Example C16_hyp : mobj_ok c16_obj /\ exists x, bound c16_obj x /\ x <> 2 ^ 64 - 1.
Proof.
  split.
  - split; [|cbn [mo_sections c16_obj]; ex]. intros t [H|H]; inversion H; subst. split; [ex|]. cbn [map ms_index mk_sym]. repeat (constructor; [cbn [In]; lia|]). constructor.
  - exists 56. split; [|lia]. right; left. exists 16, 40. split; [left; reflexivity|reflexivity].
Qed.
