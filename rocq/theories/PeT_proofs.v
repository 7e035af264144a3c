(** Proofs about the tables of a PE file. *)
From Verif Require Import Core_proofs Util_proofs File_proofs Str_proofs Map_proofs Pod_proofs Iter_proofs Ar_proofs ArSym_proofs Rel_proofs ElfR_proofs Kind_proofs CoffW_proofs CoffR_proofs CoffI_proofs.
From Verif Require Import Pe_spec Pe_proofs PeX_proofs PeI_proofs PeF_proofs.

Lemma loaded_iff F t va d a : Forall sec_u32 t -> 0 <= va -> t_data_containing F t va = Some (d, a) <-> loaded F t va d a.
Proof. intros. apply t_data_containing_iff; assumption. Qed.
Lemma content_iff F t d b : Forall sec_u32 t -> pair_u32 d -> dir_data F d t = Ok b <-> dir_content F t d b.
Proof. intros Ht [H1 H2]. unfold u32_ok in *. apply dir_data_iff; [assumption|lia|lia]. Qed.
Lemma dir_data_np F t d : dir_data F d t <> Panic.
Proof. unfold dir_data. destruct (t_data_at _ _ _); cbn [of_opt bind]; [|discriminate]. destruct (get_to _ _); discriminate. Qed.
Lemma sec_fields_u32 l : Forall sec_fields l -> Forall sec_u32 l.
Proof. apply Forall_impl. intros s (? & ? & ? & ? & ? & _). unfold sec_u32. auto. Qed.
Lemma dir_get_iff l i d : dir_get l i = Some d <-> has_dir l i d.
Proof.
  unfold dir_get, has_dir. destruct (zget l i) as [x|]; [|split; [discriminate|intros [X _]; discriminate]]. destruct (Z.eqb_spec (fst x) 0) as [Z0|N0]; cbn [negb]; split; intro H.
  - discriminate.
  - destruct H as [H ?]. assert (x = d) by congruence. subst. contradiction.
  - assert (x = d) by congruence. subst. auto.
  - tauto.
Qed.
Lemma imp_eta T : T = {| it_va := it_va T; it_data := it_data T; it_sva := it_sva T; it_ndata := it_ndata T; it_nva := it_nva T |}.
Proof. destruct T; reflexivity. Qed.
Lemma dimp_eta T : T = {| dt_data := dt_data T; dt_sva := dt_sva T; dt_va := dt_va T |}.
Proof. destruct T; reflexivity. Qed.
Lemma import_exact F t va T : file_ok F -> Forall sec_u32 t -> u32_ok va ->
  import_from_sections F t va = Ok T <-> it_va T = va /\ import_sections F t va (it_data T) (it_sva T) (it_ndata T) (it_nva T).
Proof.
  intros [HFb HFl] Ht Hv. unfold u32_ok in Hv. unfold import_from_sections, import_sections.
  assert (U : forall x d a d' a', 0 <= x -> loaded F t x d a -> loaded F t x d' a' -> d = d' /\ a = a').
  { intros x d a d' a' Hx A B. apply (loaded_iff F t x d a Ht Hx) in A. apply (loaded_iff F t x d' a' Ht Hx) in B. split; congruence. }
  destruct (t_data_containing F t va) as [[D sva]|] eqn:E; cbn [of_opt bind].
  2: { split; [discriminate|]. intros (_ & L & _). apply loaded_iff in L; [congruence|assumption|lia]. }
  apply (loaded_iff F t va D sva Ht ltac:(lia)) in E. pose proof E as (s & Hs & ED & Ea). apply is_first_in in Hs as (Hi & Hc & Hf). unfold covers in Hc. rewrite Forall_forall in Ht. pose proof (Ht s Hi) as (H1 & H2 & H3 & H4). rewrite <- Forall_forall in Ht. unfold u32_ok in *.
  assert (HDb : bytes_ok D) by (subst D; apply bytes_ok_zslice; exact HFb). assert (HDl : zlen D = mapped s) by (subst D; rewrite zlen_zslice; [reflexivity|lia|unfold mapped in *; lia|lia]).
  unfold import_descriptors. cbn [import_new it_data it_sva it_va]. rewrite at_address_eq. assert (Eo : (va - sva) mod 2 ^ 32 = va - sva) by (apply Z.mod_small; unfold mapped in *; lia). rewrite Eo. destruct (Z.leb_spec (va - sva) (zlen D)); [|lia].
  destruct (ended_total desc_enc desc_ok desc_null 20 idesc_of idesc_null idesc_type (zdrop (va - sva) D) (bytes_ok_zdrop _ _ HDb)) as (l & cut & He).
  assert (Hu : forall l' cut', descs_end (zdrop (va - sva) D) l' cut' -> fst (idesc_next (zdrop (va - sva) D, false)) = match l' with d :: _ => Ok (Some d) | [] => if cut' then Err else Ok None end).
  { intros [|d l'] cut' H'; unfold idesc_next.
    - destruct cut'; [destruct (next_cut _ _ _ _ _ _ idesc_type _ H') as (d' & ->)|destruct (next_end _ _ _ _ _ _ idesc_type _ H') as (d' & ->)]; reflexivity.
    - destruct (next_item _ _ _ _ _ _ idesc_type _ _ _ _ H') as (d' & -> & _). reflexivity. }
  pose proof (Hu _ _ He) as En. destruct (idesc_next (zdrop (va - sva) D, false)) as [r it'] eqn:Eit. cbn [fst] in *. subst r.
  assert (Hd : forall d l', l = d :: l' -> 0 <= id_name d). { intros d l' ->. destruct He as (Hff & _). apply Forall_inv in Hff as [(_ & _ & _ & Hn & _) _]. unfold u32_ok in Hn. lia. }
  split.
  - intro X. destruct l as [|d l'].
    + assert (T = import_new D sva va) by (destruct cut; congruence). subst T. cbn [import_new it_va it_data it_sva it_ndata it_nva]. split; [reflexivity|]. split; [exact E|]. exists [], cut. auto.
    + destruct (t_data_containing F t (id_name d)) as [[nd nva]|] eqn:Ed; assert (ET := X); injection X as <-; cbn [import_new it_va it_data it_sva it_ndata it_nva]; (split; [reflexivity|]; split; [exact E|]; exists (d :: l'), cut; split; [exact He|]).
      * left. apply loaded_iff; eauto.
      * right. split; [|auto]. intros n a Hn. apply loaded_iff in Hn; [congruence|assumption|eauto].
  - intros (E1 & L & l2 & cut2 & He2 & HN). destruct (U va _ _ _ _ ltac:(lia) E L) as [Q3 Q4]. rewrite <- Q3, <- Q4 in He2. pose proof (Hu _ _ He2) as En2.
    assert (El : match l with d :: _ => Some d | [] => None end = match l2 with d :: _ => Some d | [] => None end) by (destruct l, l2; try reflexivity; destruct cut, cut2; congruence).
    destruct l as [|d l'], l2 as [|d2 l2]; try discriminate El.
    + destruct HN as [A B]. rewrite (imp_eta T), E1, A, B, <- Q3, <- Q4. unfold import_new. destruct cut; reflexivity.
    + assert (d2 = d) by congruence. subst d2. destruct (t_data_containing F t (id_name d)) as [[nd nva]|] eqn:Ed.
      * apply loaded_iff in Ed; [|assumption|eauto]. destruct HN as [HN|(HN & _)]; [|exfalso; exact (HN _ _ Ed)]. destruct (U (id_name d) _ _ _ _ ltac:(eauto) Ed HN) as [Q1 Q2]. rewrite (imp_eta T), E1, <- Q1, <- Q2, <- Q3, <- Q4. reflexivity.
      * destruct HN as [HN|(_ & A & B)]; [apply loaded_iff in HN; [congruence|assumption|eauto]|]. rewrite (imp_eta T), E1, A, B, <- Q3, <- Q4. reflexivity.
Qed.
Lemma import_sections_np F t va : import_from_sections F t va <> Panic.
Proof.
  unfold import_from_sections. destruct (t_data_containing _ _ _) as [[d a]|]; cbn [of_opt bind]; [|discriminate]. unfold import_descriptors. rewrite at_address_eq. destruct (_ <=? _); [|discriminate].
  unfold idesc_next, null_next. match goal with |- context [b_read ?x 20] => pose proof (b_read_np x 20); destruct (b_read x 20) as [[| |] ?] end; cbn [fst] in *; try congruence. destruct (idesc_null _); [discriminate|]. destruct (t_data_containing _ _ _) as [[? ?]|]; discriminate.
Qed.
(** * The tables of a file *)
Section files.
Context (is64 : bool) (F dos nt : bytes) (dirs : list (Z * Z)) (secs : list csec) (f : pefile) (HF : file_ok F) (Hf : pe_parse is64 F = Ok f) (HI : pe_image is64 F (pf_dos f) (pf_nt f) (pf_dirs f) (pf_sections f)).
Lemma f_secs : Forall sec_u32 (pf_sections f).
Proof. destruct HI as (? & ? & ? & ? & H). apply sec_fields_u32. tauto. Qed.
Lemma f_dirs i d : has_dir (pf_dirs f) i d -> pair_u32 d.
Proof. destruct HI as (? & ? & ? & ? & H). intros [E _]. assert (Forall pair_u32 (pf_dirs f)) as G by tauto. apply zget_In in E. rewrite Forall_forall in G. auto. Qed.
Lemma f_data : pf_data f = F.
Proof. exact (proj1 (pe_parse_data _ _ _ Hf)). Qed.
Lemma content_ok d b : pair_u32 d -> dir_content F (pf_sections f) d b -> file_ok b.
Proof.
  intros [H1 H2] (s & Hs & Hle & ->). destruct HF as [Hb Hl]. apply is_first_in in Hs as (Hi & Hc & Ho & Hin). pose proof f_secs as G. rewrite Forall_forall in G. destruct (G s Hi) as (? & ? & ? & ?). unfold u32_ok in *. unfold covers, offset_of in *.
  split; [apply bytes_ok_zslice; exact Hb|]. rewrite zlen_zslice by lia. lia.
Qed.
Lemma export_table_iff r : pe_export_table f = Ok r <->
  match r with
  | Some t => exists d b, has_dir (pf_dirs f) 0 d /\ dir_content F (pf_sections f) d b /\ export_parse b (fst d) = Ok t
  | None => forall d, ~ has_dir (pf_dirs f) 0 d
  end.
Proof.
  unfold pe_export_table. rewrite f_data. destruct (dir_get (pf_dirs f) 0) as [d|] eqn:E.
  - apply dir_get_iff in E. pose proof (f_dirs _ _ E) as Hd. split.
    + intro X. destruct (dir_data F d (pf_sections f)) as [b| |] eqn:Eb; try discriminate. cbn [bind] in X. destruct (export_parse b (fst d)) as [t| |] eqn:Et; try discriminate. injection X as <-. apply content_iff in Eb; [eauto|exact f_secs|exact Hd].
    + destruct r as [t|]; [|intro N; exfalso; exact (N _ E)]. intros (d' & b & Hd' & Hb & Et). assert (d' = d) by (destruct E, Hd'; congruence). subst d'. apply content_iff in Hb; [|exact f_secs|exact Hd]. rewrite Hb. cbn [bind]. rewrite Et. reflexivity.
  - split.
    + intros [= <-] d Hd. apply dir_get_iff in Hd. congruence.
    + destruct r as [t|]; [|reflexivity]. intros (d & b & Hd & _). apply dir_get_iff in Hd. congruence.
Qed.
Lemma blocks_iff i r : (match dir_get (pf_dirs f) i with None => Ok None | Some d => b <- dir_data F d (pf_sections f) ;; Ok (Some b) end) = Ok r <->
  match r with
  | Some b => exists d, has_dir (pf_dirs f) i d /\ dir_content F (pf_sections f) d b
  | None => forall d, ~ has_dir (pf_dirs f) i d
  end.
Proof.
  destruct (dir_get (pf_dirs f) i) as [d|] eqn:E.
  - apply dir_get_iff in E. pose proof (f_dirs _ _ E) as Hd. split.
    + intro X. destruct (dir_data F d (pf_sections f)) as [b| |] eqn:Eb; try discriminate. injection X as <-. apply content_iff in Eb; [eauto|exact f_secs|exact Hd].
    + destruct r as [b|]; [|intro N; exfalso; exact (N _ E)]. intros (d' & Hd' & Hb). assert (d' = d) by (destruct E, Hd'; congruence). subst d'. apply content_iff in Hb; [|exact f_secs|exact Hd]. rewrite Hb. reflexivity.
  - split.
    + intros [= <-] d Hd. apply dir_get_iff in Hd. congruence.
    + destruct r as [t|]; [|reflexivity]. intros (d & Hd & _). apply dir_get_iff in Hd. congruence.
Qed.
Lemma relocation_blocks_iff r : pe_relocation_blocks f = Ok r <-> match r with Some b => exists d, has_dir (pf_dirs f) 5 d /\ dir_content F (pf_sections f) d b | None => forall d, ~ has_dir (pf_dirs f) 5 d end.
Proof. unfold pe_relocation_blocks. rewrite f_data. apply blocks_iff. Qed.
Lemma resource_directory_iff r : pe_resource_directory f = Ok r <-> match r with Some b => exists d, has_dir (pf_dirs f) 2 d /\ dir_content F (pf_sections f) d b | None => forall d, ~ has_dir (pf_dirs f) 2 d end.
Proof. unfold pe_resource_directory. rewrite f_data. apply blocks_iff. Qed.
Lemma import_table_iff r : pe_import_table f = Ok r <->
  match r with
  | Some T => exists d, has_dir (pf_dirs f) 1 d /\ it_va T = fst d /\ import_sections F (pf_sections f) (fst d) (it_data T) (it_sva T) (it_ndata T) (it_nva T)
  | None => forall d, ~ has_dir (pf_dirs f) 1 d
  end.
Proof.
  unfold pe_import_table. rewrite f_data. destruct (dir_get (pf_dirs f) 1) as [d|] eqn:E.
  - apply dir_get_iff in E. pose proof (f_dirs _ _ E) as [Hd _]. split.
    + intro X. destruct (import_from_sections F (pf_sections f) (fst d)) as [T| |] eqn:Eb; try discriminate. injection X as <-. apply import_exact in Eb; [exists d; tauto|exact HF|exact f_secs|exact Hd].
    + destruct r as [T|]; [|intro N; exfalso; exact (N _ E)]. intros (d' & Hd' & Hb). assert (d' = d) by (destruct E, Hd'; congruence). subst d'. apply import_exact in Hb; [|exact HF|exact f_secs|exact Hd]. rewrite Hb. reflexivity.
  - split.
    + intros [= <-] d Hd. apply dir_get_iff in Hd. congruence.
    + destruct r as [t|]; [|reflexivity]. intros (d & Hd & _). apply dir_get_iff in Hd. congruence.
Qed.
Lemma delay_table_iff r : pe_delay_table f = Ok r <->
  match r with
  | Some T => exists d, has_dir (pf_dirs f) 13 d /\ dt_va T = fst d /\ loaded F (pf_sections f) (fst d) (dt_data T) (dt_sva T)
  | None => forall d, ~ has_dir (pf_dirs f) 13 d
  end.
Proof.
  unfold pe_delay_table. rewrite f_data. destruct (dir_get (pf_dirs f) 13) as [d|] eqn:E.
  - apply dir_get_iff in E. pose proof (f_dirs _ _ E) as [Hd _]. unfold u32_ok in Hd. split.
    + intro X. destruct (t_data_containing F (pf_sections f) (fst d)) as [[b a]|] eqn:Eb; try discriminate. injection X as <-. cbn [dt_va dt_data dt_sva]. apply loaded_iff in Eb; [exists d; auto|exact f_secs|lia].
    + destruct r as [T|]; [|intro N; exfalso; exact (N _ E)]. intros (d' & Hd' & Hv & Hb). assert (d' = d) by (destruct E, Hd'; congruence). subst d'. apply loaded_iff in Hb; [|exact f_secs|lia]. rewrite Hb. cbn [of_opt bind]. rewrite (dimp_eta T), Hv. reflexivity.
  - split.
    + intros [= <-] d Hd. apply dir_get_iff in Hd. congruence.
    + destruct r as [t|]; [|reflexivity]. intros (d & Hd & _). apply dir_get_iff in Hd. congruence.
Qed.
Lemma loaded_bytes_ok va d a : loaded F (pf_sections f) va d a -> bytes_ok d.
Proof. intros (s & _ & -> & _). apply bytes_ok_zslice. exact (proj1 HF). Qed.
Lemma tables_ok t dt : pe_import_table f = Ok t -> pe_delay_table f = Ok dt -> tabs_ok t dt.
Proof.
  intros A B. apply import_table_iff in A. apply delay_table_iff in B. split.
  - destruct t as [t|]; [|trivial]. destruct A as (d & _ & _ & L & l & cut & _ & H). split; [exact (loaded_bytes_ok _ _ _ L)|]. destruct l; [destruct H as [-> _]; exact (loaded_bytes_ok _ _ _ L)|]. destruct H as [H|(_ & -> & _)]; eapply loaded_bytes_ok; eassumption.
  - destruct dt as [dt|]; [|trivial]. destruct B as (d & _ & _ & L). exact (loaded_bytes_ok _ _ _ L).
Qed.
End files.
