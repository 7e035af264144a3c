(** Property theorems C78-C81 (src/build/elf.rs, src/build/macho.rs: editing). *)
From Verif Require Import Core_proofs Build_proofs BuildD_proofs BuildV_proofs BuildM_proofs BuildL_proofs BuildR_proofs.
From Verif Require Import Build_spec.

(** [delete_orphans] completes exactly when the ids that live items refer to exist; then exactly the
    orphans are gone, nothing refers to a deleted item, and a second call changes nothing. *)
Theorem C78_delete_orphans : forall b, 
  ((exists b', delete_orphans b = Ok b') <-> ids_ok b) /\
  (forall b', delete_orphans b = Ok b' -> orphaned b b' /\ no_dangling b' /\ delete_orphans b' = Ok b').
Proof.
  intros b. split; [apply orphans_ex|]. intros b' H. pose proof (orphans_ok _ _ H) as O.
  assert (no_dangling b') as N by (eapply orphaned_clean; [apply orphans_ex; eauto|exact O]).
  split; [exact O|]. split; [exact N|apply clean_fixed, N].
Qed.
Print Assumptions C78_delete_orphans.

(** [delete_unused_versions] deletes exactly the versions that no live dynamic symbol has (and that are
    not the marker of DT_RELR), and the files that no remaining version needs. *)
Theorem C79_unused_versions : forall b,
  ((exists b', delete_unused_versions b = Ok b') <-> ver_ids_ok b) /\
  (forall b', delete_unused_versions b = Ok b' -> unused_deleted b b').
Proof.
  intros b. split; [|intros b' H; apply versions_ok, H]. split; [|apply versions_ex].
  intros (b' & H). apply versions_ok in H. tauto.
Qed.
Print Assumptions C79_unused_versions.

(** Mach-O: segments, symbols, load commands and relocations of deleted symbols. *)
Theorem C80_macho_orphans : forall b,
  (m_ids_ok b -> (forall s, In s (mb_secs b) -> ms_del s = false) -> exists b', m_delete_orphans b = Ok b') /\
  (forall b', m_delete_orphans b = Ok b' -> m_orphaned b b').
Proof. intros b. split; [apply m_orphans_ex|apply m_orphans_ok]. Qed.
Print Assumptions C80_macho_orphans.

(** Relocations that refer to a deleted section are kept, and the operation may panic although all ids exist. *)
Definition c80_sec d l := Build_msec d [1;2] l.
Definition c80_rel t := Build_mrel t 0 false 2 0.
Definition c80_b := Build_mbuilder [] [c80_sec true []; c80_sec false [c80_rel (MSection 0)]] [] [] [].
Definition c80_p := Build_mbuilder [] [c80_sec true []; c80_sec false [c80_rel (MSection 1)]] [] [] [].
Theorem C80_deleted_section_refuted :
  ~ (forall b b', m_delete_orphans b = Ok b' -> forall s r id, In s (mb_secs b') -> ms_del s = false -> In r (ms_relocs s) ->
       mr_target r = MSection id -> ~ dead ms_del (mb_secs b') id) /\
  ~ (forall b, m_ids_ok b -> exists b', m_delete_orphans b = Ok b').
Proof.
  split; intros H.
  - refine (H c80_b c80_b eq_refl (c80_sec false [c80_rel (MSection 0)]) (c80_rel (MSection 0)) 0 _ eq_refl _ eq_refl _).
    + cbn. tauto.
    + cbn. tauto.
    + exists (c80_sec true []). split; reflexivity.
  - destruct (H c80_p) as (b' & E); [|discriminate E].
    unfold m_ids_ok. cbn. split; [intros g []|]. split; [intros m id []|]. split; [|split; [|split; intros id []]].
    + intros s r id [<-|[<-|[]]]; cbn; [tauto|]. intros _ [<-|[]]. discriminate.
    + intros s r id [<-|[<-|[]]]; cbn; [tauto|]. intros _ [<-|[]] [= <-]. exists (c80_sec false [c80_rel (MSection 1)]). reflexivity.
Qed.
Print Assumptions C80_deleted_section_refuted.

(** A new loadable segment comes after all live segments, in file and memory, and its address is
    congruent to its offset. *)
Theorem C81_add_load : forall segs flags al, pow2 al ->
  (forall g, add_load_segment segs flags al = Ok g ->
    fresh_load g flags al /\ 0 <= g_offset g /\ 0 <= g_vaddr g < 2 ^ 64 /\ g_vaddr g mod al = g_offset g mod al /\
    (al | g_vaddr g - g_offset g) /\
    (forall h, In h segs -> g_del h = false -> g_offset h + g_filesz h <= g_offset g /\ g_vaddr h + g_memsz h <= g_vaddr g) /\
    (g_offset g = 0 \/ exists h, In h segs /\ g_del h = false /\ g_offset g = g_offset h + g_filesz h)) /\
  (forall M, 0 <= M -> M + 2 * al <= 2 ^ 64 ->
    (forall h, In h segs -> g_del h = false -> g_offset h + g_filesz h <= M /\ g_vaddr h + g_memsz h <= M) ->
    exists g, add_load_segment segs flags al = Ok g /\ g_offset g <= M /\ g_vaddr g < M + 2 * al).
Proof. intros segs flags al Hal. split; [intros g; apply add_load_ok, Hal|intros M; apply add_load_ex, Hal]. Qed.
Print Assumptions C81_add_load.

(** Sections appended to it are laid out in order without overlap, aligned, at one distance between
    offset and address, inside the segment and outside all other live segments. *)
Theorem C81_layout : forall segs flags al g secs ids g' secs', pow2 al ->
  add_load_segment segs flags al = Ok g -> NoDup ids ->
  (forall id s, In id ids -> zget secs id = Some s -> appendable al s) ->
  append_sections g secs ids = Ok (g', secs') ->
  laid_out g secs ids g' secs' /\
  (forall id p k, In id ids -> zget secs' id = Some p -> 0 <= k < s_size p ->
     contains_offset g' (s_offset p + k) = true /\ contains_address g' (s_addr p + k) = true /\
     address_from_offset g' (s_offset p + k) = wrap_u 64 (s_addr p + k) /\
     (forall h, In h segs -> g_del h = false ->
        contains_offset h (s_offset p + k) = false /\ contains_address h (s_addr p + k) = false)).
Proof.
  intros segs flags al g secs ids g' secs' Hal A ND HA H. 
  destruct (add_load_ok _ _ _ _ Hal A) as ((F1 & F2 & F3 & F4 & F5 & F6 & F7 & F8) & P1 & P2 & P3 & P4 & P5 & P6).
  destruct (append_sections_ok al (g_vaddr g - g_offset g) Hal P4 ids g secs g' secs') as (L & La & O1 & O2 & O3); [|exact ND|exact HA|exact H|].
  { unfold loadable. rewrite F5, F6. split; [exact F2|]. split; [reflexivity|]. split; [exact F7|]. split; [lia|]. split; [lia|]. split; lia. }
  split; [exact La|]. intros id p k Hid Hp Hk. destruct La as (_ & _ & (ps & Q1 & Q2 & Q3 & Q4) & _ & _ & _ & _ & _ & La9 & La10 & La11).
  destruct (F2_in_l _ _ _ _ Q1 Hid) as (p' & Hin & Hp'). assert (p' = p) by congruence. subst p'.
  rewrite Forall_forall in Q4. destruct (Q4 p Hin) as ((V1 & V2 & V3) & V4 & V5 & V6). specialize (V6 ltac:(lia)). unfold sec_end in V5.
  destruct L as (K1 & K2 & K3 & K4 & K5 & K6 & K7). unfold contains_offset, contains_address, address_from_offset, wrap_u.
  split; [apply andb_true_iff; split; [apply Z.leb_le; lia|apply Z.ltb_lt; lia]|].
  split; [apply andb_true_iff; split; [apply Z.leb_le; lia|apply Z.ltb_lt; lia]|]. split.
  - rewrite Zplus_mod_idemp_r. f_equal. lia.
  - intros h Hh Hd. destruct (P5 h Hh Hd) as [W1 W2].
    split; apply andb_false_iff; right; apply Z.ltb_ge; lia.
Qed.
Print Assumptions C81_layout.

(** ... and this succeeds if there is enough room. *)
Theorem C81_layout_exists : forall segs flags al secs ids M, pow2 al -> 0 <= M -> M + 2 * al + room secs ids <= 2 ^ 64 ->
  (forall h, In h segs -> g_del h = false -> g_offset h + g_filesz h <= M /\ g_vaddr h + g_memsz h <= M) ->
  NoDup ids -> (forall id, In id ids -> exists s, zget secs id = Some s /\ appendable al s) ->
  exists g g' secs', add_load_segment segs flags al = Ok g /\ append_sections g secs ids = Ok (g', secs').
Proof.
  intros segs flags al secs ids M Hal HM HR Hl ND HA.
  assert (0 <= room secs ids) by (apply (room_nonneg al); intros i x Hi Hx; destruct (HA i Hi) as (y & Y1 & Y2); congruence).
  destruct (add_load_ex segs flags al M Hal HM ltac:(lia) Hl) as (g & A & B1 & B2). pose proof (BuildL_proofs.pow2_pos _ Hal).
  destruct (add_load_ok _ _ _ _ Hal A) as ((F1 & F2 & F3 & F4 & F5 & F6 & F7 & F8) & P1 & P2 & P3 & P4 & P5 & P6).
  destruct (append_sections_ex al (g_vaddr g - g_offset g) Hal P4 ids g secs) as (g' & secs' & E); [|exact ND|exact HA| | |eauto].
  - unfold loadable. rewrite F5, F6. split; [exact F2|]. split; [reflexivity|]. split; [exact F7|]. split; [lia|]. split; [lia|]. split; lia.
  - unfold seg_end. rewrite F5. lia.
  - unfold seg_end. rewrite F5. lia.
Qed.
Print Assumptions C81_layout_exists.

(** [copy] *)
Theorem C81_copy : forall segs id g, zget segs id = Some g ->
  copy_segment segs id = if g_type g =? PT_LOAD then add_load_segment segs (g_flags g) (g_align g)
    else Ok (Build_bseg false (g_type g) (g_flags g) 0 0 0 0 0 (g_align g) []).
Proof. intros segs id g H. unfold copy_segment, tab_get. rewrite H. reflexivity. Qed.
Print Assumptions C81_copy.

(** [recalculate_ranges]: for sections listed in order of offset and address, the ranges are the
    smallest that cover the sections. *)
Theorem C81_recalculate : forall g secs ss, Forall2 (fun id s => zget secs id = Some s) (g_secs g) ss -> Forall sec_fits ss ->
  exists g', recalculate_ranges g secs = Ok g' /\ same_but_ranges g g' /\
    (StronglySorted in_order ss ->
       Forall (fun s => 0 < s_size s -> covers g' s) ss /\ (ss <> [] -> g_paddr g' = g_vaddr g' /\ tight g' ss)).
Proof. exact recalculate_ok. Qed.
Print Assumptions C81_recalculate.

Definition sec0 ty off ad sz al := Build_bsec false [] ty 2 ad off sz None 0 None al 0 (SUninit sz).
Definition seg0 l := Build_bseg false PT_LOAD 4 0 0 0 0 0 4096 l.
(** Without that order a section can be left outside the ranges. *)
Theorem C81_unsorted_refuted : ~ (forall g secs ss g', Forall2 (fun id s => zget secs id = Some s) (g_secs g) ss -> Forall sec_fits ss ->
  recalculate_ranges g secs = Ok g' -> Forall (fun s => 0 < s_size s -> covers g' s) ss).
Proof.
  intros H. specialize (H (seg0 [0;1]) [sec0 1 0x2000 0x2000 0x100 1; sec0 1 0x1000 0x1000 0x10 1]
    [sec0 1 0x2000 0x2000 0x100 1; sec0 1 0x1000 0x1000 0x10 1] (Build_bseg false PT_LOAD 4 0x1000 0x1000 0x1000 0x100 0x100 4096 [0;1])).
  assert (Forall (fun s => 0 < s_size s -> covers (Build_bseg false PT_LOAD 4 0x1000 0x1000 0x1000 0x100 0x100 4096 [0;1]) s)
    [sec0 1 0x2000 0x2000 0x100 1; sec0 1 0x1000 0x1000 0x10 1]) as W.
  { apply H; [repeat constructor| |reflexivity]. repeat constructor; unfold sec_fits; cbn; lia. }
  inversion W as [|? ? W1 _]; subst. unfold covers, file_size in W1. cbn in W1. lia.
Qed.
Print Assumptions C81_unsorted_refuted.
(** Two sections of which the first has no file contents cannot be appended, nor one without alignment. *)
Theorem C81_nobits_refuted :
  append_sections (seg0 []) [sec0 SHT_NOBITS 0 0 16 1; sec0 SHT_NOBITS 0 0 16 1] [0; 1] = Panic /\
  append_sections (seg0 []) [sec0 1 0 0 16 0] [0] = Panic.
Proof. split; reflexivity. Qed.
Print Assumptions C81_nobits_refuted.

(** * Examples *)
Definition c78_sec del d := Build_bsec del [65] 1 2 0 0 16 (Some 0) 0 None 8 0 d.
Definition c78_sym del sec ver := Build_bsym del [97] sec 0 0 1 5 6 ver false.
Definition c78_seg l := Build_bseg false 1 5 0 0 0 0 0 4096 l.
Definition c78_b := Build_builder
  [c78_seg [0; 1]; c78_seg [0]; c78_seg []]
  [c78_sec true (SData [1]); c78_sec false (SRel [Build_brel 0 (Some 0) 1 0; Build_brel 8 (Some 1) 1 0; Build_brel 16 None 2 0]);
   c78_sec false (SDynamic [DAuto DT_HASH; DAuto DT_GNU_HASH; DInteger 30 1]); c78_sec false SHash; c78_sec true SGnuHash]
  [c78_sym false (Some 0) 0; c78_sym false (Some 1) 0] [c78_sym false (Some 3) 3; c78_sym true None 2]
  [Build_bfile false [108]; Build_bfile false [109]]
  [Build_bver false (VNeed 0 [118] 0); Build_bver false (VNeed 1 [119] 0)].
Definition c78_b' := Build_builder
  [c78_seg [1]; Build_bseg true 1 5 0 0 0 0 0 4096 []; c78_seg []]
  [c78_sec true (SData [1]); c78_sec false (SRel [Build_brel 8 (Some 1) 1 0; Build_brel 16 None 2 0]);
   c78_sec false (SDynamic [DAuto DT_HASH; DInteger 30 1]); c78_sec false SHash; c78_sec true SGnuHash]
  [c78_sym true (Some 0) 0; c78_sym false (Some 1) 0] [c78_sym false (Some 3) 3; c78_sym true None 2]
  [Build_bfile false [108]; Build_bfile false [109]]
  [Build_bver false (VNeed 0 [118] 0); Build_bver false (VNeed 1 [119] 0)].
Example C78_ex : delete_orphans c78_b = Ok c78_b' /\ ids_ok c78_b.
Proof. split; [vm_compute; reflexivity|]. apply orphans_ex. exists c78_b'. vm_compute. reflexivity. Qed.
Example C79_ex : ver_ids_ok c78_b /\
  match delete_unused_versions c78_b with
  | Ok b' => map v_del (b_vers b') = [true; false] /\ map f_del (b_files b') = [true; false]
  | _ => False
  end.
Proof.
  split; [|vm_compute; split; reflexivity].
  assert (exists b', delete_unused_versions c78_b = Ok b') as H by (vm_compute; eauto).
  destruct H as (b' & H). apply versions_ok in H. tauto.
Qed.
Definition c80_ok := Build_mbuilder [c78_seg [0]; c78_seg []] [c80_sec false [c80_rel (MSymbol 0); c80_rel (MSymbol 1); c80_rel (MSection 0)]]
  [c78_sym true None 0; c78_sym false (Some 0) 0] [Build_mdylib true [97]; Build_mdylib false [98]]
  [MSegment 0; MSegment 1; MDylib 0; MDylib 1; MOther 2 [1]].
Example C80_ex : m_delete_orphans c80_ok = Ok (Build_mbuilder (mb_segs c80_ok) [c80_sec false [c80_rel (MSymbol 1); c80_rel (MSection 0)]]
  (mb_syms c80_ok) (mb_dylibs c80_ok) [MSegment 0; MSegment 1; MDylib 1; MOther 2 [1]]).
Proof. vm_compute. reflexivity. Qed.
Definition c81_segs := [Build_bseg false PT_LOAD 5 0 0x400000 0x400000 0x1234 0x2234 0x1000 []; Build_bseg true PT_LOAD 5 0 0 0 0x999999 0x999999 0x1000 []].
Definition c81_secs := [sec0 1 0 0 0x11 1; sec0 1 0 0 0x100 16; sec0 1 0 0 0 8; sec0 1 0 0 0x20 4096].
Example C81_ex :
  (exists g, add_load_segment c81_segs 6 0x1000 = Ok g /\ g_offset g = 0x1234 /\ g_vaddr g = 0x403234 /\
   match append_sections g c81_secs [1; 0; 3] with
   | Ok (g', secs') => map s_offset secs' = [0x1340; 0x1240; 0; 0x2000] /\ map s_addr secs' = [0x403340; 0x403240; 0; 0x404000] /\
        g_offset g' = 0x1240 /\ g_filesz g' = 0xde0 /\ g_vaddr g' = 0x403240
   | _ => False
   end) /\
  (forall id, In id [1; 0; 3] -> exists s, zget c81_secs id = Some s /\ appendable 0x1000 s) /\ pow2 0x1000 /\ NoDup [1; 0; 3].
Proof.
  split; [eexists; split; [vm_compute; reflexivity|]; vm_compute; repeat split|]. split; [|split].
  - intros id [<-|[<-|[<-|[]]]]; eexists; (split; [reflexivity|]); unfold appendable; cbn; (split; [discriminate|]); (split; [lia|]).
    + split; [exists 4; lia|lia].
    + split; [exists 0; lia|lia].
    + split; [exists 12; lia|lia].
  - exists 12. lia.
  - repeat constructor; cbn; lia.
Qed.
Example C81_ex_recalc : exists g', recalculate_ranges (seg0 [0; 1; 2])
   [sec0 1 0x1000 0x5000 0 1; sec0 1 0x1010 0x5010 0x20 1; sec0 SHT_NOBITS 0x1040 0x5040 0x100 1] = Ok g' /\
   (g_offset g', g_filesz g', g_vaddr g', g_memsz g') = (0x1010, 0x30, 0x5010, 0x130).
Proof. eexists. split; [vm_compute; reflexivity|reflexivity]. Qed.
