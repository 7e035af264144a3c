(** Proofs about the unified ELF reader: compression, debug links, COMDAT groups. *)
From Verif Require Import Core_proofs Str_proofs Util_proofs Hash_proofs Rel_proofs Note_proofs Ver_proofs File_proofs Elf_proofs ElfR_proofs Pod_proofs.
From Verif Require PeI_proofs PeX_proofs Ar_spec Ar_proofs ArSym_proofs CoffR_proofs CoffI_proofs CoffW_proofs Trie_proofs MachW_proofs.
From Verif Require Import Obj_model ElfF_spec ElfF_proofs ElfG_proofs ElfH_proofs.

(** * Compression *)
Lemma number_fld e o n b v : bytes_ok b -> 0 <= o -> 0 <= n -> o + n <= zlen b -> number_at b e o n v <-> v = fld e o n b.
Proof.
  intros K Ho Hn L. unfold number_at, fld. split.
  - intros (x & H & Hx & ->). apply holds_slice in H. rewrite Hx in H. rewrite H. reflexivity.
  - intros ->. exists (zslice o n b). split; [|split; [apply zlen_zslice; lia|reflexivity]]. apply holds_iff. rewrite zlen_zslice by lia. repeat split; lia || reflexivity.
Qed.
Lemma nobits_bit x : has_flags x 2048 = Z.testbit x 11.
Proof. change 2048 with (2 ^ 11). apply has_flags_bit. lia. Qed.
Lemma range_some s o n : sh_file_range s = Some (o, n) <-> sh_type s <> 8 /\ o = sh_offset s /\ n = sh_size s.
Proof. unfold sh_file_range, SHT_NOBITS. destruct (Z.eqb_spec (sh_type s) 8); split; try discriminate; [lia| |]; [intro H; split; [assumption|split; congruence]|intros (_ & -> & ->); reflexivity]. Qed.
Definition elf_at (is64 : bool) (e : endian) (F : bytes) (s : shdr) (c : crange) : Prop := elf_compressed is64 e F s c.
Lemma word_lt is64 v : word_ok is64 v -> 0 <= v < 2 ^ 64.
Proof. unfold word_ok. destruct is64; lia. Qed.
Lemma chdr_pos is64 : 12 <= chdr_size is64 <= 24. Proof. destruct is64; cbn; lia. Qed.
Section Compress.
Context (is64 : bool) (e : endian) (F : bytes) (s : shdr).
Context (K : bytes_ok F) (HF : zlen F < 2 ^ 63) (S : shdr_ok is64 s).
Lemma maybe_elf :
  (forall c, es_maybe_compressed is64 e F s = Ok (Some c) <-> elf_compressed is64 e F s c) /\
  (es_maybe_compressed is64 e F s = Ok None <-> ~ bit (sh_flags s) 11) /\ es_maybe_compressed is64 e F s <> Panic.
Proof.
  destruct S as (_ & _ & _ & _ & So & Ss & _). apply word_lt in So, Ss. unfold es_maybe_compressed, sh_compression, elf_compressed, bit. rewrite nobits_bit.
  destruct (Z.testbit (sh_flags s) 11); cbn [negb bind].
  2: { split; [intros c; split; [discriminate|intros (A & _); discriminate]|split; [split; [intros _ A; discriminate|reflexivity]|discriminate]]. }
  unfold sh_file_range, SHT_NOBITS. destruct (Z.eqb_spec (sh_type s) 8) as [T|T]; cbn [of_opt bind].
  { split; [intros c; split; [discriminate|intros (_ & A & _); lia]|split; [split; [discriminate|intro A; exfalso; apply A; reflexivity]|discriminate]]. }
  pose proof (chdr_pos is64) as CP. rewrite Ar_proofs.rr_read_eq by lia. destruct (Z.leb_spec (sh_offset s + chdr_size is64) (zlen F)) as [L|L]; cbn [bind].
  2: { split; [intros c; split; [discriminate|]|split; [split; [discriminate|intro A; exfalso; apply A; reflexivity]|discriminate]].
       intros (_ & _ & ty & size & h & H & Hl & _). apply holds_bounds in H. lia. }
  unfold psub. destruct (Z.leb_spec (sh_offset s) (sh_offset s + chdr_size is64)); [|lia]. cbn [bind]. unfold csub. set (h := zslice (sh_offset s) (chdr_size is64) F).
  assert (Hh : holds F (sh_offset s) h /\ zlen h = chdr_size is64). { assert (zlen h = chdr_size is64) by (apply zlen_zslice; lia). split; [|assumption]. apply holds_iff. rewrite H0. repeat split; lia || reflexivity. }
  destruct Hh as (Hh & Hl). assert (Kh : bytes_ok h) by (apply bytes_ok_zslice; exact K).
  assert (U : forall h', holds F (sh_offset s) h' -> zlen h' = chdr_size is64 -> h' = h). { intros h' A B. apply holds_slice in A. rewrite B in A. symmetry. exact A. }
  assert (N0 : forall v, number_at h e 0 4 v <-> v = fld e 0 4 h) by (intro v; apply number_fld; try lia; exact Kh).
  assert (N1 : forall v, (if is64 then number_at h e 8 8 v else number_at h e 4 4 v) <-> v = if is64 then fld e 8 8 h else fld e 4 4 h).
  { intro v. destruct is64; apply number_fld; try exact Kh; rewrite ?Hl; cbn [chdr_size]; lia. }
  replace (sh_offset s + chdr_size is64 - sh_offset s) with (chdr_size is64) by lia.
  destruct (Z.leb_spec (chdr_size is64) (sh_size s)) as [Q|Q]; cbn [of_opt bind].
  2: { split; [intros c; split; [discriminate|]|split; [split; [discriminate|intro A; exfalso; apply A; reflexivity]|discriminate]].
       intros (_ & _ & ty & size & h' & H' & Hl' & _ & _ & B & _). lia. }
  set (ty := fld e 0 4 h) in *. set (size := if is64 then fld e 8 8 h else fld e 4 4 h) in *.
  assert (Z1 : forall fmt, (ty = 1 /\ fmt = CFZlib \/ ty = 2 /\ fmt = CFZstd) -> forall c, (Ok (Some {| cg_format := fmt; cg_offset := sh_offset s + chdr_size is64; cg_size := sh_size s - chdr_size is64; cg_uncompressed := size |}) = Ok (Some c)) <->
     true = true /\ sh_type s <> 8 /\ exists ty size h, holds F (sh_offset s) h /\ zlen h = chdr_size is64 /\ number_at h e 0 4 ty /\
    (if is64 then number_at h e 8 8 size else number_at h e 4 4 size) /\ zlen h <= sh_size s /\
    (ty = 1 /\ cg_format c = CFZlib \/ ty = 2 /\ cg_format c = CFZstd) /\
    cg_offset c = sh_offset s + zlen h /\ cg_size c = sh_size s - zlen h /\ cg_uncompressed c = size).
  { intros fmt Hf c. split.
    - intro A. assert (c = {| cg_format := fmt; cg_offset := sh_offset s + chdr_size is64; cg_size := sh_size s - chdr_size is64; cg_uncompressed := size |}) as -> by congruence.
      cbn [cg_format cg_offset cg_size cg_uncompressed]. split; [reflexivity|]. split; [exact T|]. exists ty, size, h. split; [exact Hh|]. split; [exact Hl|]. split; [apply N0; reflexivity|]. split; [apply N1; reflexivity|].
      rewrite Hl. split; [exact Q|]. split; [exact Hf|]. repeat split; reflexivity.
    - intros (_ & _ & ty' & size' & h' & A1 & A2 & A3 & A4 & A5 & A6 & A7 & A8 & A9). assert (h' = h) as -> by (apply U; assumption). apply N0 in A3. apply N1 in A4. subst ty' size'. rewrite Hl in *.
      destruct c as [cf co cs cu]. cbn [cg_format cg_offset cg_size cg_uncompressed] in *. repeat f_equal; try congruence. destruct Hf as [(? & ->)|(? & ->)], A6 as [(? & ->)|(? & ->)]; try reflexivity; lia. }
  destruct (Z.eqb_spec ty 1) as [T1|T1]; [|destruct (Z.eqb_spec ty 2) as [T2|T2]]; cbn [bind].
  - split; [intro c; apply Z1; left; split; [exact T1|reflexivity]|]. split; [split; [discriminate|intro A; exfalso; apply A; reflexivity]|discriminate].
  - split; [intro c; apply Z1; right; split; [exact T2|reflexivity]|]. split; [split; [discriminate|intro A; exfalso; apply A; reflexivity]|discriminate].
  - split; [|split; [split; [discriminate|intro A; exfalso; apply A; reflexivity]|discriminate]]. intro c. split; [discriminate|].
    intros (_ & _ & ty' & size' & h' & A1 & A2 & A3 & A4 & A5 & A6 & _). assert (h' = h) as -> by (apply U; assumption). apply N0 in A3. subst ty'. destruct A6 as [(A6 & _)|(A6 & _)]; contradiction.
Qed.
End Compress.
Lemma be8 u : u32_ok u -> write_u Big 8 u = [0; 0; 0; 0] ++ write_u Big 4 u.
Proof.
  intros H. rewrite <- (write_read_n Big 8 ([0; 0; 0; 0] ++ write_u Big 4 u)).
  - f_equal. change (read_u Big) with be_val. cbn [app]. rewrite !be_val_cons. rewrite !Z.mul_0_l, !Z.add_0_l. change be_val with (read_u Big). symmetry. apply read_write_u_small. exact H.
  - apply bytes_ok_app. split; [repeat constructor; unfold byte_ok; lia|apply bytes_ok_write_u].
  - rewrite zlen_app, zlen_write_u. reflexivity.
Qed.
Lemma read_bytes_eq F o n : zlen F < 2 ^ 63 -> 0 <= o -> 0 < n -> rr_read_bytes F o n = if o + n <=? zlen F then (Ok (zslice o n F), o + n) else (Err, o).
Proof.
  intros HF Ho Hn. unfold rr_read_bytes. rewrite rr_read_bytes_at_eq by lia. destruct (Z.eqb_spec n 0); [lia|]. destruct (Z.leb_spec (o + n) (zlen F)); [|reflexivity].
  unfold wrap_u. rewrite Z.mod_small by lia. reflexivity.
Qed.
Lemma gnu_iff F o n c : bytes_ok F -> zlen F < 2 ^ 63 -> 0 <= o -> 0 <= n ->
  (gnu_compressed F o n = Ok c <->
   u32_ok (cg_uncompressed c) /\ holds F o (str "ZLIB" ++ write_u Big 8 (cg_uncompressed c)) /\ 12 <= n /\ cg_format c = CFZlib /\ cg_offset c = o + 12 /\ cg_size c = n - 12) /\
  gnu_compressed F o n <> Panic.
Proof.
  intros K HF Ho Hn. unfold gnu_compressed. rewrite read_bytes_eq by lia.
  assert (NB : forall u, u32_ok u -> holds F o (str "ZLIB" ++ write_u Big 8 u) -> o + 12 <= zlen F /\ zslice o 8 F = [90; 76; 73; 66; 0; 0; 0; 0] /\ zslice (o + 8) 4 F = write_u Big 4 u).
  { intros u U H. rewrite (be8 u U) in H. change (str "ZLIB" ++ [0; 0; 0; 0] ++ write_u Big 4 u) with ([90; 76; 73; 66; 0; 0; 0; 0] ++ write_u Big 4 u) in H.
    pose proof (holds_bounds _ _ _ H) as B. rewrite zlen_app, zlen_write_u in B. change (zlen [90; 76; 73; 66; 0; 0; 0; 0]) with 8 in B.
    apply holds_app in H as (H1 & H2). apply holds_slice in H1, H2. rewrite zlen_write_u in H2. split; [lia|]. split; [exact H1|exact H2]. }
  destruct (Z.leb_spec (o + 8) (zlen F)) as [L|L]; cbn [bind].
  2: { split; [|discriminate]. split; [discriminate|]. intros (U & H & _). apply NB in H; [lia|exact U]. }
  destruct (bytes_eqb (zslice o 8 F) [90; 76; 73; 66; 0; 0; 0; 0]) eqn:M; cbn [negb].
  2: { split; [|discriminate]. split; [discriminate|]. intros (U & H & _). apply NB in H as (_ & H & _); [|exact U]. rewrite H in M. discriminate. }
  apply bytes_eqb_eq in M. rewrite Ar_proofs.rr_read_eq by lia. destruct (Z.leb_spec (o + 8 + 4) (zlen F)) as [L2|L2]; cbn [bind].
  2: { split; [|discriminate]. split; [discriminate|]. intros (U & H & _). apply NB in H as (H & _); [lia|exact U]. }
  unfold psub, csub. destruct (Z.leb_spec o (o + 8 + 4)); [|lia]. cbn [bind]. replace (o + 8 + 4 - o) with 12 by lia.
  destruct (Z.leb_spec 12 n) as [L3|L3]; cbn [of_opt bind].
  2: { split; [|discriminate]. split; [discriminate|]. intros (U & H' & L4 & _). lia. }
  set (w := zslice (o + 8) 4 F) in *. assert (Kw : bytes_ok w) by (apply bytes_ok_zslice; exact K). assert (Lw : zlen w = 4) by (apply zlen_zslice; lia).
  assert (Uw : u32_ok (read_u Big w)). { pose proof (read_u_bound Big w Kw) as R. rewrite Lw in R. exact R. }
  split; [|discriminate]. split.
  - intros E. assert (c = {| cg_format := CFZlib; cg_offset := o + 8 + 4; cg_size := n - 12; cg_uncompressed := read_u Big w |}) as -> by congruence. clear E.
    cbn [cg_format cg_offset cg_size cg_uncompressed]. split; [exact Uw|]. split; [|repeat split; lia || reflexivity].
    rewrite (be8 _ Uw). rewrite (write_read_n Big 4 w Kw Lw). change (str "ZLIB" ++ [0; 0; 0; 0] ++ w) with ([90; 76; 73; 66; 0; 0; 0; 0] ++ w). apply holds_app. rewrite <- M at 1.
    split; apply holds_iff; [rewrite zlen_zslice by lia|rewrite Lw]; change (zlen [90; 76; 73; 66; 0; 0; 0; 0]) with 8; repeat split; lia || reflexivity.
  - intros (U & H' & _ & A1 & A2 & A3). apply NB in H' as (_ & _ & H'); [|exact U]. fold w in H'. destruct c as [cf co cs cu]. cbn [cg_format cg_offset cg_size cg_uncompressed] in *. subst.
    rewrite H'. rewrite read_write_u_small by exact U. replace (o + 8 + 4) with (o + 12) by lia. reflexivity.
Qed.
Section Gnu.
Context (is64 : bool) (F : bytes) (f : efile) (s : shdr).
Context (K : bytes_ok F) (HF : zlen F < 2 ^ 63) (S : shdr_ok is64 s) (ST : strtab_in F (stab_strings (ef_sections f))).
Definition zname : Prop := exists rest, section_name (ef_sections f) s = Ok (str ".zdebug_" ++ rest) /\ utf8 (str ".zdebug_" ++ rest).
Lemma maybe_gnu_iff :
  (forall c, es_maybe_gnu f F s = Ok (Some c) <-> zname /\ sh_type s <> 8 /\ u32_ok (cg_uncompressed c) /\ holds F (sh_offset s) (str "ZLIB" ++ write_u Big 8 (cg_uncompressed c)) /\ 12 <= sh_size s /\
     cg_format c = CFZlib /\ cg_offset c = sh_offset s + 12 /\ cg_size c = sh_size s - 12) /\
  (es_maybe_gnu f F s = Ok None <-> ~ zname) /\ es_maybe_gnu f F s <> Panic.
Proof.
  unfold es_maybe_gnu, to_str, es_name. pose proof (stb_get_bytes F (stab_strings (ef_sections f)) (sh_name s)) as G.
  change (stb_get (stab_strings (ef_sections f)) (sh_name s)) with (section_name (ef_sections f) s) in G.
  assert (NP : section_name (ef_sections f) s <> Panic) by (unfold section_name, stb_get; apply strtab_get_no_panic). unfold zname.
  destruct (section_name (ef_sections f) s) as [n| |] eqn:N; cbn [bind]; [|split; [intro c; split; [discriminate|intros ((r & A & _) & _); discriminate]|split; [split; [intros _ (r & A & _); discriminate|reflexivity]|discriminate]]|contradiction].
  destruct (G n K ST eq_refl) as (Kn & _). pose proof (utf8_iff n Kn) as UI. destruct (utf8_valid n) eqn:V.
  2: { assert (~ utf8 n) by (intro A; apply UI in A; discriminate).
       split; [intro c; split; [discriminate|intros ((r & A & A') & _); exfalso; apply H; congruence]|split; [split; [intros _ (r & A & A'); apply H; congruence|reflexivity]|discriminate]]. }
  pose proof (starts_with_iff n (str ".zdebug_")) as SI. destruct (starts_with n (str ".zdebug_")) eqn:SW; cbn [negb].
  2: { split; [intro c; split; [discriminate|intros ((r & A & A') & _); assert (false = true) by (apply SI; exists r; congruence); discriminate]|].
       split; [split; [intros _ (r & A & A'); assert (false = true) by (apply SI; exists r; congruence); discriminate|reflexivity]|discriminate]. }
  assert (ZN : exists rest, Ok n = Ok (str ".zdebug_" ++ rest) /\ utf8 (str ".zdebug_" ++ rest)).
  { destruct (proj1 SI eq_refl) as (r & ->). exists r. split; [reflexivity|apply UI; reflexivity]. }
  destruct S as (_ & _ & _ & _ & So & Ss & _). apply word_lt in So, Ss.
  unfold sh_file_range, SHT_NOBITS. destruct (Z.eqb_spec (sh_type s) 8) as [T|T]; cbn [of_opt bind].
  { split; [intro c; split; [discriminate|intros (_ & A & _); contradiction]|]. split; [split; [discriminate|intro A; contradiction]|discriminate]. }
  split; [|split].
  - intros c. destruct (gnu_iff F (sh_offset s) (sh_size s) c K HF) as (A & B); [lia|lia|]. destruct (gnu_compressed F (sh_offset s) (sh_size s)) as [c'| |]; cbn [bind].
    + split; [intro E; assert (c' = c) as -> by congruence; split; [exact ZN|]; split; [exact T|]; apply A; reflexivity|]. intros (_ & _ & H). apply A in H. congruence.
    + split; [discriminate|]. intros (_ & _ & H). apply A in H. discriminate.
    + contradiction.
  - split; [|contradiction]. destruct (gnu_compressed _ _ _); discriminate.
  - destruct (gnu_iff F (sh_offset s) (sh_size s) (crange_none None) K HF) as (_ & B); [lia|lia|]. destruct (gnu_compressed F (sh_offset s) (sh_size s)); cbn [bind]; [discriminate|discriminate|contradiction].
Qed.
Lemma compressed_iff : (forall c, es_compressed_range is64 f F s = Ok c <-> elf_compressed is64 (ef_endian f) F s c \/ gnu_format f F s c \/ uncompressed f s c) /\
  es_compressed_range is64 f F s <> Panic.
Proof.
  destruct (maybe_elf is64 (ef_endian f) F s K HF S) as (A1 & A2 & A3). destruct maybe_gnu_iff as (B1 & B2 & B3). unfold es_compressed_range. unfold gnu_format, uncompressed. fold zname.
  destruct (es_maybe_compressed is64 (ef_endian f) F s) as [[c'|]| |]; cbn [bind]; [| | |contradiction].
  - split; [|discriminate]. intros c. assert (Bt : bit (sh_flags s) 11) by (apply (A1 c'); reflexivity). split.
    + intro E. left. apply A1. congruence.
    + intros [H|[(H & _)|(H & _)]]; [apply A1 in H; congruence|contradiction|contradiction].
  - assert (Bt : ~ bit (sh_flags s) 11) by (apply A2; reflexivity). destruct (es_maybe_gnu f F s) as [[c'|]| |]; cbn [bind]; [| | |contradiction].
    + split; [|discriminate]. intros c. assert (ZN : zname) by (apply (B1 c'); reflexivity). split.
      * intro E. right; left. destruct (proj1 (B1 c)) as (C1 & C2 & C3); [congruence|]. tauto.
      * intros [(H & _)|[(_ & H1 & H2 & H3)|(_ & H & _)]]; [contradiction| |contradiction]. assert (Ok (Some c') = Ok (Some c)) as Q by (apply B1; tauto). congruence.
    + split; [|discriminate]. intros c. assert (ZN : ~ zname) by (apply B2; reflexivity). unfold sh_file_range, SHT_NOBITS. split.
      * intro E. right; right. split; [exact Bt|]. split; [exact ZN|]. destruct (sh_type s =? 8); cbn [crange_none] in E;
        match type of E with Ok ?x = _ => assert (c = x) as -> by congruence end; cbn [cg_format cg_offset cg_size cg_uncompressed]; repeat split; reflexivity.
      * intros [(H & _)|[(_ & _ & H & _)|(_ & _ & H1 & H2)]]; [contradiction|contradiction|]. destruct c as [cf co cs cu]; cbn [cg_format cg_offset cg_size cg_uncompressed] in *.
        destruct (sh_type s =? 8); destruct H2 as (-> & -> & ->); subst cf; reflexivity.
    + split; [|discriminate]. intros c. split; [discriminate|]. intros [(H & _)|[(_ & H1 & H2 & H3)|(_ & H & _)]]; [contradiction| |].
      * assert (Err = Ok (Some c)) as Q by (apply B1; tauto). discriminate.
      * exfalso. apply B2 in H. discriminate.
  - split; [|discriminate]. intros c. split; [discriminate|]. intros [H|[(H & _)|(H & _)]]; [apply A1 in H; discriminate|apply A2 in H; discriminate|apply A2 in H; discriminate].
Qed.
End Gnu.
