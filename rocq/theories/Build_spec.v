(** What the editing operations of the builders must do, in terms of which items are deleted and which
    items refer to which.  Does not use the functions of Build_model.v, only its record types. *)
From Coq Require Export Sorted.
From Verif Require Export Build_model.

(** the item with this id exists and is, or is not, deleted *)
Definition dead {T} (del : T -> bool) (t : list T) (id : Z) := exists x, zget t id = Some x /\ del x = true.
Definition alive {T} (del : T -> bool) (t : list T) (id : Z) := exists x, zget t id = Some x /\ del x = false.
(** [l'] is [l] without the elements that do not satisfy [P] *)
Inductive kept {A} (P : A -> Prop) : list A -> list A -> Prop :=
| kept_nil : kept P [] []
| kept_keep x l l' : P x -> kept P l l' -> kept P (x :: l) (x :: l')
| kept_drop x l l' : ~ P x -> kept P l l' -> kept P (x :: l) l'.

(** the kind of section that an automatically generated dynamic entry describes *)
Inductive table_of : Z -> sdata -> Prop :=
| t_symtab : table_of DT_SYMTAB SDynamicSymbol
| t_strtab : table_of DT_STRTAB SDynamicString
| t_strsz : table_of DT_STRSZ SDynamicString
| t_hash : table_of DT_HASH SHash
| t_gnu_hash : table_of DT_GNU_HASH SGnuHash
| t_versym : table_of DT_VERSYM SGnuVersym
| t_verdef : table_of DT_VERDEF SGnuVerdef
| t_verdefnum : table_of DT_VERDEFNUM SGnuVerdef
| t_verneed : table_of DT_VERNEED SGnuVerneed
| t_verneednum : table_of DT_VERNEEDNUM SGnuVerneed.

(** a segment after the deletion of sections: other fields unchanged, deleted section ids dropped from its
    list, and deleted exactly if it already was or had sections and all of them are deleted *)
Definition seg_orphaned {S} (del : S -> bool) (secs : list S) (g g' : bseg) :=
  g' = Build_bseg (g_del g') (g_type g) (g_flags g) (g_offset g) (g_vaddr g) (g_paddr g) (g_filesz g) (g_memsz g) (g_align g) (g_secs g') /\
  (g_del g = true -> g' = g) /\
  (g_del g = false ->
    kept (fun id => ~ dead del secs id) (g_secs g) (g_secs g') /\
    (g_del g' = true <-> g_secs g <> [] /\ forall id, In id (g_secs g) -> dead del secs id)).
Definition sym_orphaned {S} (del : S -> bool) (secs : list S) (m m' : bsym) :=
  m' = Build_bsym (m_del m') (m_name m) (m_section m) (m_info m) (m_other m) (m_shndx m) (m_value m) (m_size m) (m_version m) (m_hidden m) /\
  (m_del m' = true <-> m_del m = true \/ exists id, m_section m = Some id /\ dead del secs id).
Definition rel_ok (syms : list bsym) (r : brel) := forall id, r_symbol r = Some id -> ~ dead m_del syms id.
Definition dyn_ok (secs : list bsec) (d : bdyn) :=
  forall tag k, d = DAuto tag -> table_of tag k -> exists id s, zget secs id = Some s /\ s_del s = false /\ s_data s = k.
Definition data_orphaned (b b' : builder) (d d' : sdata) :=
  match d with
  | SRel l => exists l', d' = SRel l' /\ kept (rel_ok (b_syms b')) l l'
  | SDynRel l => exists l', d' = SDynRel l' /\ kept (rel_ok (b_dynsyms b')) l l'
  | SDynamic l => exists l', d' = SDynamic l' /\ kept (dyn_ok (b_secs b)) l l'
  | _ => d' = d
  end.
Definition sec_orphaned (b b' : builder) (s s' : bsec) :=
  s' = Build_bsec (s_del s) (s_name s) (s_type s) (s_flags s) (s_addr s) (s_offset s) (s_size s) (s_link s) (s_info s)
         (s_info_section s) (s_align s) (s_entsize s) (s_data s') /\
  (s_del s = true -> s' = s) /\ (s_del s = false -> data_orphaned b b' (s_data s) (s_data s')).
(** exactly the orphans are deleted *)
Definition orphaned (b b' : builder) :=
  Forall2 (seg_orphaned s_del (b_secs b)) (b_segs b) (b_segs b') /\
  Forall2 (sym_orphaned s_del (b_secs b)) (b_syms b) (b_syms b') /\
  Forall2 (sym_orphaned s_del (b_secs b)) (b_dynsyms b) (b_dynsyms b') /\
  Forall2 (sec_orphaned b b') (b_secs b) (b_secs b') /\
  b_files b' = b_files b /\ b_vers b' = b_vers b.

(** the ids that live items refer to exist *)
Definition in_table {T} (t : list T) (id : Z) := exists x, zget t id = Some x.
Definition ids_ok (b : builder) :=
  (forall g, In g (b_segs b) -> g_del g = false -> Forall (in_table (b_secs b)) (g_secs g)) /\
  (forall m id, In m (b_syms b) \/ In m (b_dynsyms b) -> m_del m = false -> m_section m = Some id -> in_table (b_secs b) id) /\
  (forall s l r id, In s (b_secs b) -> s_del s = false -> s_data s = SRel l -> In r l -> r_symbol r = Some id -> in_table (b_syms b) id) /\
  (forall s l r id, In s (b_secs b) -> s_del s = false -> s_data s = SDynRel l -> In r l -> r_symbol r = Some id -> in_table (b_dynsyms b) id).
(** no live item refers to a deleted one *)
Definition no_dangling (b : builder) :=
  (forall g id, In g (b_segs b) -> g_del g = false -> In id (g_secs g) -> alive s_del (b_secs b) id) /\
  (forall m id, In m (b_syms b) \/ In m (b_dynsyms b) -> m_del m = false -> m_section m = Some id -> alive s_del (b_secs b) id) /\
  (forall s l r id, In s (b_secs b) -> s_del s = false -> s_data s = SRel l -> In r l -> r_symbol r = Some id -> alive m_del (b_syms b) id) /\
  (forall s l r id, In s (b_secs b) -> s_del s = false -> s_data s = SDynRel l -> In r l -> r_symbol r = Some id -> alive m_del (b_dynsyms b) id) /\
  (forall s l tag k, In s (b_secs b) -> s_del s = false -> s_data s = SDynamic l -> In (DAuto tag) l -> table_of tag k ->
     exists s', In s' (b_secs b) /\ s_del s' = false /\ s_data s' = k).

(** * Versions: the id of the version at position [i] is [i + 2] *)
Definition ver_used (b : builder) (i : Z) (v : bver) :=
  (exists m, In m (b_dynsyms b) /\ m_del m = false /\ m_version m = i + 2) \/
  exists file fl, v_data v = VNeed file relr_name fl.
Definition file_used (b : builder) (i : Z) :=
  exists j v name fl, zget (b_vers b) j = Some v /\ v_del v = false /\ v_data v = VNeed i name fl.
(** exactly the unused versions and the unused version files are deleted *)
Definition unused_deleted (b b' : builder) :=
  b_segs b' = b_segs b /\ b_secs b' = b_secs b /\ b_syms b' = b_syms b /\ b_dynsyms b' = b_dynsyms b /\
  zlen (b_vers b') = zlen (b_vers b) /\ zlen (b_files b') = zlen (b_files b) /\
  (forall i v, zget (b_vers b) i = Some v -> exists v', zget (b_vers b') i = Some v' /\ v_data v' = v_data v /\
     (v_del v' = false <-> v_del v = false /\ ver_used b i v)) /\
  (forall i f, zget (b_files b) i = Some f -> exists f', zget (b_files b') i = Some f' /\ f_name f' = f_name f /\
     (f_del f' = false <-> f_del f = false /\ file_used b' i)).
Definition ver_ids_ok (b : builder) :=
  (forall m, In m (b_dynsyms b) -> m_del m = false -> 0 <= m_version m < zlen (b_vers b) + 2) /\
  (forall i v file name fl, zget (b_vers b) i = Some v -> v_del v = false -> ver_used b i v -> v_data v = VNeed file name fl ->
     0 <= file < zlen (b_files b)).

(** * Mach-O *)
Definition m_rel_ok (b : mbuilder) (r : mrel) := forall id, mr_target r = MSymbol id -> ~ dead m_del (mb_syms b) id.
Definition m_sec_orphaned (b' : mbuilder) (s s' : msec) :=
  ms_del s' = ms_del s /\ ms_data s' = ms_data s /\
  (ms_del s = true -> ms_relocs s' = ms_relocs s) /\
  (ms_del s = false -> kept (m_rel_ok b') (ms_relocs s) (ms_relocs s')).
Definition cmd_ok (b : mbuilder) (c : mcmd) :=
  match c with
  | MSegment id => ~ dead g_del (mb_segs b) id
  | MDylib id => ~ dead md_del (mb_dylibs b) id
  | MOther _ _ => True
  end.
Definition m_orphaned (b b' : mbuilder) :=
  Forall2 (seg_orphaned ms_del (mb_secs b)) (mb_segs b) (mb_segs b') /\
  Forall2 (sym_orphaned ms_del (mb_secs b)) (mb_syms b) (mb_syms b') /\
  Forall2 (m_sec_orphaned b') (mb_secs b) (mb_secs b') /\
  kept (cmd_ok b') (mb_cmds b) (mb_cmds b') /\ mb_dylibs b' = mb_dylibs b.
Definition m_ids_ok (b : mbuilder) :=
  (forall g, In g (mb_segs b) -> g_del g = false -> Forall (in_table (mb_secs b)) (g_secs g)) /\
  (forall m id, In m (mb_syms b) -> m_del m = false -> m_section m = Some id -> in_table (mb_secs b) id) /\
  (forall s r id, In s (mb_secs b) -> ms_del s = false -> In r (ms_relocs s) -> mr_target r = MSymbol id -> in_table (mb_syms b) id) /\
  (forall s r id, In s (mb_secs b) -> ms_del s = false -> In r (ms_relocs s) -> mr_target r = MSection id -> in_table (mb_secs b) id) /\
  (forall id, In (MSegment id) (mb_cmds b) -> in_table (mb_segs b) id) /\
  (forall id, In (MDylib id) (mb_cmds b) -> in_table (mb_dylibs b) id).

(** * Layout *)
Definition pow2 (x : Z) := exists k, 0 <= k < 64 /\ x = 2 ^ k.
Definition sec_end (s : bsec) := s_offset s + s_size s.
Definition addr_end (s : bsec) := s_addr s + s_size s.
(** sections placed one after the other, in file and in memory *)
Definition before (s t : bsec) := sec_end s <= s_offset t /\ addr_end s <= s_addr t.
Definition file_size (s : bsec) := if s_type s =? SHT_NOBITS then 0 else s_size s.
Definition fields_ok (s : bsec) := u64_ok (s_offset s) /\ u64_ok (s_addr s) /\ u64_ok (s_size s).
(** the section's bytes [o .. o + size) start at a multiple of its alignment, in file and memory, at
    distance [d] *)
Definition placed_at (d : Z) (s : bsec) := (s_align s | s_offset s) /\ (s_align s | s_addr s) /\ s_addr s = s_offset s + d.
(** only the place of a section changes *)
Definition moved (s s' : bsec) := exists o a, s' =
  Build_bsec (s_del s) (s_name s) (s_type s) (s_flags s) a o (s_size s) (s_link s) (s_info s) (s_info_section s)
    (s_align s) (s_entsize s) (s_data s).
(** a section that can be appended to a loadable segment of alignment [al] *)
Definition appendable (al : Z) (s : bsec) := s_type s <> SHT_NOBITS /\ 0 <= s_size s /\ pow2 (s_align s) /\ s_align s <= al.
(** [ids] has been appended to [g], giving [g'] and the sections [secs'] *)
Definition laid_out (g : bseg) (secs : list bsec) (ids : list Z) (g' : bseg) (secs' : list bsec) :=
  zlen secs' = zlen secs /\
  (forall id, ~ In id ids -> zget secs' id = zget secs id) /\
  (exists ps, Forall2 (fun id p => zget secs' id = Some p) ids ps /\
     Forall2 (fun id p => forall s, zget secs id = Some s -> moved s p) ids ps /\
     StronglySorted before ps /\
     Forall (fun p => placed_at (g_vaddr g - g_offset g) p /\ g_offset g + g_filesz g <= s_offset p /\
                      sec_end p <= g_offset g' + g_filesz g' /\
                      (0 < s_size p -> g_offset g' <= s_offset p)) ps) /\
  g_secs g' = g_secs g ++ ids /\
  g_del g' = g_del g /\ g_type g' = g_type g /\ g_flags g' = g_flags g /\ g_align g' = g_align g /\
  g_filesz g' = g_memsz g' /\ g_paddr g' = g_vaddr g' /\ g_vaddr g' - g_offset g' = g_vaddr g - g_offset g.
(** listed in order of offset and of address *)
Definition in_order (s t : bsec) := s_offset s <= s_offset t /\ s_addr s <= s_addr t.
Definition sec_fits (s : bsec) := 0 <= s_offset s /\ 0 <= s_addr s /\ 0 <= s_size s /\ s_offset s + s_size s < 2 ^ 64 /\ s_addr s + s_size s < 2 ^ 64.
Definition same_but_ranges (g g' : bseg) :=
  g_del g' = g_del g /\ g_type g' = g_type g /\ g_flags g' = g_flags g /\ g_align g' = g_align g /\ g_secs g' = g_secs g.
Definition covers (g : bseg) (s : bsec) :=
  g_offset g <= s_offset s /\ s_offset s + file_size s <= g_offset g + g_filesz g /\
  g_vaddr g <= s_addr s /\ s_addr s + s_size s <= g_vaddr g + g_memsz g.
Definition tight (g : bseg) (l : list bsec) :=
  (exists s, In s l /\ s_offset s = g_offset g /\ s_addr s = g_vaddr g) /\
  (exists s, In s l /\ s_offset s + file_size s = g_offset g + g_filesz g) /\
  (exists s, In s l /\ s_addr s + s_size s = g_vaddr g + g_memsz g).
(** a new loadable segment without contents *)
Definition fresh_load (g : bseg) (flags al : Z) :=
  g_del g = false /\ g_type g = PT_LOAD /\ g_flags g = flags /\ g_align g = al /\ g_filesz g = 0 /\ g_memsz g = 0 /\
  g_paddr g = g_vaddr g /\ g_secs g = [].
(** the space that the sections may take *)
Fixpoint room (secs : list bsec) (ids : list Z) : Z :=
  match ids with [] => 0 | id :: ids => match zget secs id with Some s => s_align s + s_size s | None => 0 end + room secs ids end.
