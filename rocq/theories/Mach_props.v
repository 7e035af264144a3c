(** Mach-O reader: the properties. *)
From Verif Require Import Base Core_proofs Util_proofs Pod_proofs File_proofs Hash_proofs Rel_proofs Ar_proofs Trie_proofs Coff_spec CoffR_proofs CoffI_proofs Elf_proofs.
From Verif Require Import Mach_spec Mach_proofs MachF_proofs MachP_proofs MachQ_proofs MachM_proofs.

(** * C35 Load commands *)
Definition load_commands_at (D : bytes) (ncmds off : Z) : lcit := {| li_data := D; li_ncmds := ncmds; li_offset := off |}.
(** The iterator returns [l], and then an error or the end, exactly if [l] are the commands that can be read. *)
Theorem C35_load_commands e D ncmds off l err : bytes_ok D -> 0 <= ncmds -> 0 <= off -> off + zlen D < 2 ^ 64 ->
  (exists st, runs (lc_next e) (load_commands_at D ncmds off) l err st) <-> readable e ncmds off D l (negb err).
Proof. exact (lc_iff e D ncmds off l err). Qed.
Print Assumptions C35_load_commands.
(** It always ends, without panic, after at most [ncmds] commands; after an error there is nothing more. *)
Theorem C35_load_commands_end e D ncmds off : bytes_ok D -> 0 <= ncmds -> 0 <= off -> off + zlen D < 2 ^ 64 ->
  exists l err st, runs (lc_next e) (load_commands_at D ncmds off) l err st /\ lc_next e st = (Ok None, st) /\ zlen l <= ncmds.
Proof. exact (lc_total e D ncmds off). Qed.
Print Assumptions C35_load_commands_end.
(** a structure at the start of a command, if it is long enough *)
Theorem C35_structure c n b : 0 <= n -> lc_struct c n = Ok b <-> zlen b = n /\ exists tl, lc_data c = b ++ tl.
Proof. exact (struct_iff c n b). Qed.
Print Assumptions C35_structure.
Definition ex_cmds : bytes := write_u Little 4 0x1b ++ write_u Little 4 12 ++ [1; 2; 3; 4] ++ write_u Little 4 7 ++ write_u Little 4 8 ++ write_u Little 4 9 ++ write_u Little 4 7.
Example C35_ex : exists st, runs (lc_next Little) (load_commands_at ex_cmds 3 32)
  [{| lc_cmd := 0x1b; lc_offset := 32; lc_data := ztake 12 ex_cmds |}; {| lc_cmd := 7; lc_offset := 44; lc_data := zslice 12 8 ex_cmds |}] true st.
Proof. eexists. eapply runs_more; [vm_compute; reflexivity|]. eapply runs_more; [vm_compute; reflexivity|]. apply runs_err. vm_compute. reflexivity. Qed.

(** * C53 The whole file *)
Theorem C53_parse is64 F f : file_ok F -> mach_parse is64 F = Ok f <-> mach_of is64 F f.
Proof. exact (mach_iff is64 F f). Qed.
Print Assumptions C53_parse.
Theorem C53_no_panic is64 F : file_ok F -> mach_parse is64 F <> Panic.
Proof. exact (mach_np is64 F). Qed.
Print Assumptions C53_no_panic.
(** sections by their number, from 1 *)
Theorem C53_section f i x : mach_section f i = Ok x <-> 0 < i /\ zget (mf_sections f) (i - 1) = Some x.
Proof.
  unfold mach_section, csub. destruct (Z.leb_spec 1 i) as [H|H]; cbn [of_opt bind].
  - replace (0 <=? i - 1) with true by lia. cbn [of_opt bind]. destruct (zget (mf_sections f) (i - 1)); cbn [of_opt]; split; intros Q; try (injection Q as ->); try (split; [lia|reflexivity]); try (destruct Q as (_ & Q); congruence); try discriminate.
  - replace (0 <=? i - 1) with false by lia. cbn [of_opt bind]. split; [discriminate|lia].
Qed.
Print Assumptions C53_section.
(** the data of a section: none if it has no data, else the bytes of the file *)
Theorem C53_section_data F s off d : 0 <= off -> 0 <= x_size s ->
  ms_data F s off = Ok d <-> if section_has_data s && negb (x_size s =? 0) then holds F off d /\ zlen d = x_size s else d = [].
Proof.
  intros Ho Hs. unfold ms_data. rewrite has_data_iff. destruct (section_has_data s); cbn [andb]; [|split; congruence].
  rewrite rr_read_bytes_at_eq by lia. destruct (Z.eqb_spec (x_size s) 0) as [E|E]; cbn [negb]; [split; congruence|]. split.
  - destruct (Z.leb_spec (off + x_size s) (zlen F)); [|discriminate]. intros [= <-]. split; [apply holds_zslice; lia|apply zlen_zslice; lia].
  - intros (Hh & L). pose proof (holds_bounds _ _ _ Hh). replace (off + x_size s <=? zlen F) with true by lia. f_equal. rewrite <- L. apply holds_slice. exact Hh.
Qed.
Print Assumptions C53_section_data.
Theorem C53_segment_data F g d : 0 <= g_fileoff g -> 0 < g_filesize g -> seg_data F g = Ok d <-> holds F (g_fileoff g) d /\ zlen d = g_filesize g.
Proof.
  intros Ho Hs. unfold seg_data. rewrite rr_read_bytes_at_eq by lia. replace (g_filesize g =? 0) with false by lia. split.
  - destruct (Z.leb_spec (g_fileoff g + g_filesize g) (zlen F)); [|discriminate]. intros [= <-]. split; [apply holds_zslice; lia|apply zlen_zslice; lia].
  - intros (Hh & L). pose proof (holds_bounds _ _ _ Hh). replace (g_fileoff g + g_filesize g <=? zlen F) with true by lia. f_equal. rewrite <- L. apply holds_slice. exact Hh.
Qed.
Print Assumptions C53_segment_data.
Definition f16 (s : string) : bytes := str s ++ zeros (16 - zlen (str s)).
Definition ex_h : mhdr := {| mh_cpu := 0x100000c; mh_sub := 0; mh_file := 1; mh_n := 3; mh_sz := 280; mh_fl := 0x2000 |}.
Definition ex_g : mseg := {| g_name := zeros 16; g_vmaddr := 0; g_vmsize := 12; g_fileoff := 312; g_filesize := 4; g_maxprot := 7; g_initprot := 7; g_nsects := 2; g_flags := 0 |}.
Definition ex_s1 : msec := {| x_sectname := f16 "__text"; x_segname := f16 "__TEXT"; x_addr := 0; x_size := 4; x_offset := 312; x_align := 2; x_reloff := 0; x_nreloc := 0; x_flags := 0x80000400; x_reserved1 := 0; x_reserved2 := 0; x_reserved3 := 0 |}.
Definition ex_s2 : msec := {| x_sectname := f16 "__bss"; x_segname := f16 "__DATA"; x_addr := 4; x_size := 8; x_offset := 0; x_align := 2; x_reloff := 0; x_nreloc := 0; x_flags := 1; x_reserved1 := 0; x_reserved2 := 0; x_reserved3 := 0 |}.
Definition ex_n1 : nlist := {| n_strx := 1; n_type := 0xf; n_sect := 1; n_desc := 0; n_value := 0 |}.
Definition ex_n2 : nlist := {| n_strx := 1; n_type := 0x64; n_sect := 0; n_desc := 0; n_value := 0 |}.
Definition ex_n3 : nlist := {| n_strx := 7; n_type := 0xe; n_sect := 2; n_desc := 0; n_value := 4 |}.
Definition ex_strs : bytes := [0] ++ str "_main" ++ [0] ++ str "ltmp0" ++ [0].
Definition ex_uuid : bytes := [1; 2; 3; 4; 5; 6; 7; 8; 9; 10; 11; 12; 13; 14; 15; 16].
Definition ex_F : bytes := Eval vm_compute in
  mach_hdr true Little ex_h (zeros 4) ++ mach_seg true Little 232 ex_g ++ mach_sec true Little ex_s1 ++ mach_sec true Little ex_s2 ++
  write_u Little 4 2 ++ write_u Little 4 24 ++ write_u Little 4 316 ++ write_u Little 4 3 ++ write_u Little 4 364 ++ write_u Little 4 (zlen ex_strs) ++
  write_u Little 4 0x1b ++ write_u Little 4 24 ++ ex_uuid ++ [0xc0; 3; 0x5f; 0xd6] ++ concat (map (mach_nlist true Little) [ex_n1; ex_n2; ex_n3]) ++ ex_strs.
Definition ex_f : mfile := Eval vm_compute in match mach_parse true ex_F with Ok f => f | _ => {| mf_64 := true; mf_endian := Little; mf_header := []; mf_segments := []; mf_sections := []; mf_symbols := msymtab_empty; mf_data := [] |} end.
Lemma ex_F_ok : file_ok ex_F. Proof. split; [apply bytes_ok_forallb; vm_compute; reflexivity|vm_compute; reflexivity]. Qed.
Example C53_ex : mach_parse true ex_F = Ok ex_f /\ mf_segments ex_f = [ex_g] /\ map xi_sec (mf_sections ex_f) = [ex_s1; ex_s2] /\
  map xi_kind (mf_sections ex_f) = [SKText; SKUninitializedData] /\ mt_symbols (mf_symbols ex_f) = [ex_n1; ex_n2; ex_n3].
Proof. vm_compute. repeat split. Qed.
Example C53_ex_spec : mach_of true ex_F ex_f.
Proof. apply C53_parse; [apply ex_F_ok|]. apply C53_ex. Qed.

(** * C54 Section offsets of files larger than 4 GB *)
Theorem C54_section_offsets is64 g l : seg_ok is64 g -> Forall (fun x => msec_ok is64 (fst x)) l -> g_fileoff g + g_filesize g < 2 ^ 64 ->
  in_order (g_fileoff g) (g_fileoff g + g_filesize g) l -> seg_section_offsets g (map fst l) = Ok l.
Proof. exact (order_ok is64 g l). Qed.
Print Assumptions C54_section_offsets.
(** in general: offsets are returned exactly if there are offsets that agree with the headers *)
Theorem C54_section_offsets_iff is64 g l os : seg_ok is64 g -> Forall (msec_ok is64) l ->
  (exists r, seg_section_offsets g l = Ok r /\ map fst r = l /\ map snd r = os) <-> segment_offsets g l os.
Proof. exact (seg_offsets_iff is64 g l os). Qed.
Print Assumptions C54_section_offsets_iff.
Definition ex_big (o : Z) : msec := {| x_sectname := f16 "__a"; x_segname := f16 "__b"; x_addr := 0; x_size := 0xc0000000; x_offset := o; x_align := 0; x_reloff := 0; x_nreloc := 0; x_flags := 0; x_reserved1 := 0; x_reserved2 := 0; x_reserved3 := 0 |}.
Definition ex_bigseg : mseg := {| g_name := zeros 16; g_vmaddr := 0; g_vmsize := 0; g_fileoff := 0x1000; g_filesize := 0x400000000; g_maxprot := 7; g_initprot := 7; g_nsects := 3; g_flags := 0 |}.
Definition ex_bigs : list (msec * Z) := [(ex_big 0x1000, 0x1000); (ex_s2, 0); (ex_big 0xd0000000, 0xd0000000); (ex_big 0x90000000, 0x190000000); (ex_big 0x60000000, 0x260000000)].
Example C54_ex : seg_section_offsets ex_bigseg (map fst ex_bigs) = Ok ex_bigs. Proof. vm_compute. reflexivity. Qed.
Example C54_ex_hyps : in_order (g_fileoff ex_bigseg) (g_fileoff ex_bigseg + g_filesize ex_bigseg) ex_bigs.
Proof. vm_compute. intuition congruence. Qed.

(** * C55 Sections by name *)
Theorem C55_section_by_name f query x : mach_section_by_name f query = Some x <->
  is_first (fun y => exists name, field_name (x_sectname (xi_sec y)) name /\ finds query name) (mf_sections f) x.
Proof. exact (by_name_iff f query x). Qed.
Print Assumptions C55_section_by_name.
Theorem C55_section_by_name_none f query : mach_section_by_name f query = None <->
  Forall (fun y => ~ exists name, field_name (x_sectname (xi_sec y)) name /\ finds query name) (mf_sections f).
Proof. exact (by_name_none f query). Qed.
Print Assumptions C55_section_by_name_none.
Example C55_ex : mach_section_by_name ex_f (str ".bss") = Some {| xi_kind := SKUninitializedData; xi_sec := ex_s2; xi_offset := 0 |} /\ mach_section_by_name ex_f (str ".data") = None /\
  finds (str ".debug_str_offsets") (str "__debug_str_offs") /\ finds (str ".debug_str_offsets") (str "__zdebug_str_off").
Proof. split; [vm_compute; reflexivity|]. split; [vm_compute; reflexivity|]. split; right; [left; exists (str "debug_str_offsets")|right; exists (str "str_offsets")]; split; reflexivity. Qed.

(** * C56 Function starts *)
Theorem C56_function_starts D addr l err : bytes_ok D -> 0 <= addr < 2 ^ 64 -> (exists st, runs fs_next (D, addr) l err st) <-> deltas addr D l (negb err).
Proof. exact (fs_iff addr D l err). Qed.
Print Assumptions C56_function_starts.
Theorem C56_function_starts_end D addr : bytes_ok D -> 0 <= addr < 2 ^ 64 -> exists l err st, runs fs_next (D, addr) l err st /\ fs_next st = (Ok None, st).
Proof. intros B Ha. destruct (deltas_total addr D B Ha) as (l & c & H). destruct (fs_step addr D l c B Ha H) as (st & R & E). eauto. Qed.
Print Assumptions C56_function_starts_end.
Example C56_ex : exists st, runs fs_next ([0x10; 0x80; 1; 0; 7], 0x1000) [0x1010; 0x1090] false st.
Proof. eexists. eapply runs_more; [vm_compute; reflexivity|]. eapply runs_more; [vm_compute; reflexivity|]. apply runs_done. vm_compute. reflexivity. Qed.

(** * C57 Object map *)
Theorem C57_object_map t : map_entries t [] (mt_symbols t) (fst (mach_object_map t)) /\ object_files t (mt_symbols t) (snd (mach_object_map t)).
Proof. exact (object_map_ok t). Qed.
Print Assumptions C57_object_map.
(** these are determined by the symbols *)
Theorem C57_object_map_unique t es os : map_entries t [] (mt_symbols t) es -> object_files t (mt_symbols t) os -> mach_object_map t = (es, os).
Proof.
  intros H1 H2. destruct (object_map_ok t) as (E1 & E2). rewrite (surjective_pairing (mach_object_map t)). f_equal; [exact (entries_fun t _ _ _ E1 _ H1)|exact (files_fun t _ _ E2 _ H2)].
Qed.
Print Assumptions C57_object_map_unique.
Definition stab_ (ty strx v : Z) : nlist := {| n_strx := strx; n_type := ty; n_sect := 1; n_desc := 0; n_value := v |}.
Definition ex_omstrs : bytes := [0] ++ str "a.c" ++ [0] ++ str "lib.a(b.o)" ++ [0] ++ str "_f" ++ [0] ++ str "_v" ++ [0].
Definition ex_om : msymtab := {| mt_symbols := [stab_ 100 1 0; stab_ 102 5 0; stab_ 36 16 0x100; stab_ 36 0 0x20; stab_ 38 19 0x400; stab_ 100 0 0; stab_ 38 19 0x500];
  mt_strings := (Some ex_omstrs, 0, zlen ex_omstrs) |}.
Example C57_ex : mach_object_map ex_om =
  ([{| oe_address := 0x100; oe_size := 0x20; oe_name := str "_f"; oe_object := 0 |}; {| oe_address := 0x400; oe_size := 0; oe_name := str "_v"; oe_object := 0 |}],
   [{| of_path := str "lib.a"; of_member := Some (str "b.o") |}]).
Proof. vm_compute. reflexivity. Qed.

(** * C58 Symbols *)
Theorem C58_symbols is64 F f : file_ok F -> mach_parse is64 F = Ok f ->
  exists r st, runs (mach_sym_next f) 0 r false st /\ non_stabs 0 (mt_symbols (mf_symbols f)) r.
Proof.
  intros HF E. apply mach_iff in E; [|exact HF]. destruct E as (h & r & l & groups & tabs & _ & _ & _ & _ & _ & T & _ & _ & _ & _ & Es & _).
  assert (K : Forall (nlist_ok is64) (mt_symbols (mf_symbols f)) /\ zlen (mt_symbols (mf_symbols f)) < 2 ^ 64).
  { rewrite Es. destruct tabs as [|t0 tabs]; [split; [constructor|reflexivity]|].
    assert (I : In (last (t0 :: tabs) msymtab_empty) (t0 :: tabs)).
    { clear. revert t0. induction tabs as [|y tabs IH]; intros t0; [left; reflexivity|]. right. change (In (last (y :: tabs) msymtab_empty) (y :: tabs)). apply IH. }
    revert T I. generalize (last (t0 :: tabs) msymtab_empty). generalize (t0 :: tabs). clear. intros ts x T I. induction T as [|c y l1 l2 Hxy _ IH]; [destruct I|]. destruct I as [->|I]; [|apply IH; exact I].
    destruct Hxy as (? & ? & ? & ? & _ & _ & (? & ?) & _ & _ & Fo & _). split; [exact Fo|lia]. }
  destruct K as (K1 & K2). destruct (sym_next_runs is64 f (mt_symbols (mf_symbols f)) K1 [] eq_refl K2) as (rs & N & R). eauto.
Qed.
Print Assumptions C58_symbols.
Theorem C58_symbol_by_index is64 f i n : Forall (nlist_ok is64) (mt_symbols (mf_symbols f)) -> 
  mach_symbol_by_index f i = Ok n <-> zget (mt_symbols (mf_symbols f)) i = Some n /\ ~ stab n.
Proof.
  intros K. unfold mach_symbol_by_index, mach_symbol. destruct (zget (mt_symbols (mf_symbols f)) i) as [m|] eqn:E; cbn [of_opt bind]; [|split; [discriminate|intros (Q & _); discriminate]].
  pose proof (stab_iff is64 m (Forall_zget _ _ _ _ K E)) as S. destruct (is_stab m) eqn:Em.
  - split; [discriminate|]. intros (Q & N). injection Q as ->. exfalso. apply N, S. reflexivity.
  - split; [intros Q; injection Q as ->; split; [reflexivity|rewrite <- S; congruence]|]. intros (Q & _). injection Q as ->. reflexivity.
Qed.
Print Assumptions C58_symbol_by_index.
Example C58_ex : exists st, runs (mach_sym_next ex_f) 0 [(0, ex_n1); (2, ex_n3)] false st.
Proof. eexists. eapply runs_more; [vm_compute; reflexivity|]. eapply runs_more; [vm_compute; reflexivity|]. apply runs_done. vm_compute. reflexivity. Qed.

(** * C59 Indirect symbols *)
Theorem C59_indirect is64 s l r : msec_ok is64 s -> ms_indirect is64 s l = Ok r <-> indirect_of is64 s l r.
Proof.
  intros (_ & _ & _ & _ & _ & (H1 & _) & _ & _ & _ & _ & _ & (H2 & _) & (H3 & _) & _). apply indirect_iff; assumption.
Qed.
Print Assumptions C59_indirect.
(** the table itself: file offset and number are the 14th and 15th field after the command and its size *)
Theorem C59_table e F b l : file_ok F -> bytes_ok b -> dysymtab_indirect e b F = Ok l <->
  zlen l = fld e 60 4 b /\ Forall u32_ok l /\ (l <> [] -> holds F (fld e 56 4 b) (concat (map (write_u e 4) l))).
Proof.
  intros (B & L) Bb. unfold dysymtab_indirect. assert (0 <= fld e 56 4 b < 2 ^ 32) by (apply (fld_bound e 56 4); auto; lia). assert (0 <= fld e 60 4 b < 2 ^ 32) by (apply (fld_bound e 60 4); auto; lia).
  apply (array_iff (read_u e) (write_u e 4) u32_ok); try lia; try assumption.
  - intros c Lc Bc. split; [|apply write_read_n; assumption]. pose proof (read_u_bound e c Bc) as Q. rewrite Lc in Q. exact Q.
  - intros x Hx. split; [apply zlen_write_u|]. apply read_write_u_small. exact Hx.
Qed.
Print Assumptions C59_table.
Example C59_ex : ms_indirect true {| x_sectname := f16 "__stubs"; x_segname := f16 "__TEXT"; x_addr := 0; x_size := 12; x_offset := 0; x_align := 0; x_reloff := 0; x_nreloc := 0; x_flags := 8; x_reserved1 := 1; x_reserved2 := 6; x_reserved3 := 0 |} [7; 5; 9; 4] = Ok [5; 9].
Proof. vm_compute. reflexivity. Qed.

(** * C60 UUID and entry point: the first command that has one *)
Theorem C60_entry is64 F f h r l a : file_ok F -> mach_parse is64 F = Ok f -> mhdr_ok h -> mf_header f = mach_hdr is64 (mf_endian f) h r -> file_commands is64 (mf_endian f) F h l ->
  mach_entry f = Ok a <->
  (exists c, is_first (fun c => exists a, entry_command (mf_endian f) (mh_cpu h) c a) l c /\ entry_command (mf_endian f) (mh_cpu h) c a) \/
  ((forall c a, In c l -> ~ entry_command (mf_endian f) (mh_cpu h) c a) /\ a = 0).
Proof.
  intros HF EP Ho Eh FC. destruct (search_ok is64 F f h r l HF EP Ho Eh FC) as (K & E & _). rewrite E. clear E.
  assert (Q : forall x, In x l -> forall y, entry_of (mf_endian f) (mh_cpu h) x = Some y <-> entry_command (mf_endian f) (mh_cpu h) x y)
    by (intros x Hx y; apply entry_iff; apply (proj1 (Forall_forall _ _) K x Hx)).
  pose proof (fun y => first_some_iff _ _ l y Q) as P1. pose proof (first_some_none _ _ l Q) as P2.
  destruct (first_some (entry_of (mf_endian f) (mh_cpu h)) l) as [v|].
  - split.
    + intros [= <-]. left. apply P1. reflexivity.
    + intros [H|(N & _)]; [apply P1 in H; congruence|]. apply P2 in N. discriminate N.
  - split.
    + intros [= <-]. right. split; [apply P2; reflexivity|reflexivity].
    + intros [H|(_ & ->)]; [apply P1 in H; discriminate H|reflexivity].
Qed.
Print Assumptions C60_entry.
Theorem C60_uuid is64 F f h r l u : file_ok F -> mach_parse is64 F = Ok f -> mhdr_ok h -> mf_header f = mach_hdr is64 (mf_endian f) h r -> file_commands is64 (mf_endian f) F h l ->
  mach_uuid f = Ok (Some u) <-> exists c, is_first (fun c => exists u, uuid_command (mf_endian f) c u) l c /\ uuid_command (mf_endian f) c u.
Proof.
  intros HF EP Ho Eh FC. destruct (search_ok is64 F f h r l HF EP Ho Eh FC) as (K & _ & E). rewrite E. clear E.
  assert (Q : forall x, In x l -> forall y, uuid_of (mf_endian f) x = Some y <-> uuid_command (mf_endian f) x y)
    by (intros x Hx y; apply uuid_iff; apply (proj1 (Forall_forall _ _) K x Hx)).
  rewrite <- (first_some_iff _ _ l u Q). destruct (first_some (uuid_of (mf_endian f)) l) as [v|]; [split; congruence|]. destruct (_ && _); split; discriminate.
Qed.
Print Assumptions C60_uuid.
(** no UUID is reported, without an error, exactly if all commands could be read and none has a UUID *)
Theorem C60_uuid_none is64 F f h r l : file_ok F -> mach_parse is64 F = Ok f -> mhdr_ok h -> mf_header f = mach_hdr is64 (mf_endian f) h r -> file_commands is64 (mf_endian f) F h l ->
  (mach_uuid f = Ok None <-> zlen l = mh_n h /\ (mh_sz h = 0 \/ table_size is64 + mh_sz h <= zlen F) /\ forall c u, In c l -> ~ uuid_command (mf_endian f) c u) /\ mach_uuid f <> Panic.
Proof.
  intros HF EP Ho Eh FC. destruct (search_ok is64 F f h r l HF EP Ho Eh FC) as (K & _ & E). rewrite E. clear E.
  assert (Q : forall x, In x l -> forall y, uuid_of (mf_endian f) x = Some y <-> uuid_command (mf_endian f) x y)
    by (intros x Hx y; apply uuid_iff; apply (proj1 (Forall_forall _ _) K x Hx)).
  pose proof (first_some_none _ _ l Q) as P2. destruct (first_some (uuid_of (mf_endian f)) l) as [v|].
  - split; [|discriminate]. split; [discriminate|]. intros (_ & _ & N). apply P2 in N. discriminate N.
  - match goal with |- (if ?b then _ else _) = _ <-> _ /\ _ => idtac | |- ((if ?b then _ else _) = _ <-> _) /\ _ => destruct b eqn:Eb end.
    + split; [|discriminate]. split; [intros _|reflexivity]. split; [lia|]. split; [lia|]. apply P2. reflexivity.
    + split; [|discriminate]. split; [discriminate|]. intros (H1 & H2 & _). exfalso. lia.
Qed.
Print Assumptions C60_uuid_none.
Example C60_ex : mach_uuid ex_f = Ok (Some ex_uuid) /\ mach_entry ex_f = Ok 0. Proof. vm_compute. split; reflexivity. Qed.
