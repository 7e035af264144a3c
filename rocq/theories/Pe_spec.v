(** Specification vocabulary for PE images. *)
From Verif Require Export Pe_model File_spec Iter_spec Ar_spec.

(** * Addresses *)
(** A section header whose fields fit their types *)
Definition sec_u32 (s : csec) : Prop :=
  u32_ok (c_vaddr s) /\ u32_ok (c_vsize s) /\ u32_ok (c_rawsize s) /\ u32_ok (c_rawptr s).
(** The bytes of a section that are both in the file and in memory *)
Definition mapped (s : csec) : Z := Z.min (c_vsize s) (c_rawsize s).
Definition covers (s : csec) (va : Z) : Prop := c_vaddr s <= va < c_vaddr s + mapped s.
(** The first element of a list with a property *)
Definition is_first {A} (P : A -> Prop) (l : list A) (x : A) : Prop := exists a c, l = a ++ x :: c /\ P x /\ Forall (fun y => ~ P y) a.
(** The file offset of an address in a section *)
Definition offset_of (s : csec) (va : Z) : Z := c_rawptr s + (va - c_vaddr s).

(** * Rich header *)
Definition word (x : Z) : bytes := write_u Little 4 x.
Definition half (x : Z) : bytes := write_u Little 2 x.
Definition first_aligned (d needle : bytes) (o : Z) : Prop :=
  o mod 4 = 0 /\ holds d o needle /\ forall o', 0 <= o' < o -> o' mod 4 = 0 -> ~ holds d o' needle.
(** "DanS" masked by the key, and three masked zeros *)
Definition rich_start (key : Z) : bytes := word (Z.lxor 1399742788 key) ++ word key ++ word key ++ word key.
Definition rich_mark : bytes := [82; 105; 99; 104].
Definition rich_items (key : Z) (l : list (Z * Z)) : bytes := concat (map (fun '(a, b) => word (Z.lxor a key) ++ word (Z.lxor b key)) l).
Definition pair_u32 (p : Z * Z) : Prop := u32_ok (fst p) /\ u32_ok (snd p).
(** the bytes of a whole rich header *)
Definition rich_bytes (key : Z) (l : list (Z * Z)) : bytes := rich_start key ++ rich_items key l ++ rich_mark ++ word key.
(** [rich_header F nt o n key l]: the first aligned "Rich" before offset [nt] is followed by the key, and the first aligned start marker before it
    is at [o]; the [l] are the entries between them (a rest of less than 8 bytes is ignored) and [n] is the length from start to end *)
Definition rich_header (F : bytes) (nt o n key : Z) (l : list (Z * Z)) : Prop :=
  exists D rest e, F = D ++ rest /\ zlen D = nt /\ u32_ok key /\ Forall pair_u32 l /\
    first_aligned D rich_mark e /\ holds D e (rich_mark ++ word key) /\ first_aligned (ztake e D) (rich_start key) o /\
    holds D (o + 16) (rich_items key l) /\ o + 16 + 8 * zlen l <= e < o + 16 + 8 * zlen l + 8 /\ n = e + 8 - o.

(** * Base relocations *)
Definition u16s (l : list Z) : bytes := concat (map half l).
Definition u32s (l : list Z) : bytes := concat (map word l).
Definition block_enc (b : rblock) (x : bytes) : Prop :=
  x = word (rb_va b) ++ word (rb_size b) ++ u16s (rb_relocs b) /\ u32_ok (rb_va b) /\ u32_ok (rb_size b) /\ Forall u16_ok (rb_relocs b) /\
  rb_size b = 8 + 2 * zlen (rb_relocs b) /\ 8 < rb_size b /\ rb_size b mod 4 = 0.
(** the relocation of an entry: address and type; zero is padding *)
Definition entry_reloc (va r : Z) : Z * Z := ((va + r mod 4096) mod 2 ^ 32, r / 4096).
Definition block_relocs (b : rblock) : list (Z * Z) := map (entry_reloc (rb_va b)) (filter (fun r => negb (r =? 0)) (rb_relocs b)).

(** * Exports *)
(** What an entry of the address table of an export section [S] at address [va] means: an address outside of the section is the address of the
    export; one inside is that of a null terminated string "library.name" or "library.#ordinal", cut at the last dot. *)
Definition target_of (S : bytes) (va a : Z) (t : etarget) : Prop :=
  let o := (a - va) mod 2 ^ 32 in
  (zlen S <= o /\ t = TAddress a) \/
  (o < zlen S /\ exists lib rest, string_at S o (lib ++ 46 :: rest) /\ ~ In 46 rest /\
     ((exists c tl, rest = c :: tl /\ c <> 35 /\ t = TName lib rest) \/
      (exists ds, rest = 35 :: map (fun d => 48 + d) ds /\ ds <> [] /\ Forall (fun d => 0 <= d < 10) ds /\ value 10 ds < 65536 /\ t = TOrdinal lib (value 10 ds)))).
(** An export section: base of the ordinals, addresses, name pointers, indices of the names.  [number w]: field of the directory. *)
Definition dir_word (S : bytes) (o x : Z) : Prop := holds S o (word x) /\ u32_ok x.
Definition array_at (S : bytes) (va p : Z) (x : bytes) : Prop := holds S ((p - va) mod 2 ^ 32) x.
Definition export_section (S : bytes) (va base : Z) (addresses names indices : list Z) : Prop :=
  40 <= zlen S /\ dir_word S 16 base /\ base < 65536 /\ Forall u32_ok addresses /\ Forall u32_ok names /\ Forall u16_ok indices /\
  (exists p, dir_word S 28 p /\ ((p = 0 /\ addresses = []) \/
     (p <> 0 /\ dir_word S 20 (zlen addresses) /\ base + zlen addresses <= 65536 /\ array_at S va p (u32s addresses)))) /\
  (exists p q, dir_word S 32 p /\ dir_word S 36 q /\ ((p = 0 /\ names = [] /\ indices = []) \/
     (p <> 0 /\ q <> 0 /\ zlen indices = zlen names /\ dir_word S 24 (zlen names) /\ array_at S va p (u32s names) /\ array_at S va q (u16s indices)))).

(** What [exports] and the iterator give: results of the parts *)
Definition export_named (S : bytes) (va image base : Z) (addresses : list Z) (p i : Z) (x : rexport) : Prop :=
  exists a n t, zget addresses i = Some a /\ string_at S ((p - va) mod 2 ^ 32) n /\ target_of S va a t /\
    x = {| rx_name := NName n; rx_target := match t with TAddress a => TAddress ((image + a) mod 2 ^ 64) | t => t end; rx_ordinal := base + i |}.
Definition export_unnamed (S : bytes) (va image base i a : Z) (x : rexport) : Prop :=
  exists t, target_of S va a t /\
    x = {| rx_name := NOrdinal (base + i); rx_target := match t with TAddress a => TAddress ((image + a) mod 2 ^ 64) | t => t end; rx_ordinal := base + i |}.
(** [outcome P r]: [r] is what [P] describes, or an error ([None]) if it describes nothing *)
Definition outcome {A} (P : A -> Prop) (r : option A) : Prop := match r with Some x => P x | None => forall x, ~ P x end.
(** index and address of the exports without a name *)
Fixpoint unnamed (indices : list Z) (i : Z) (addresses : list Z) : list (Z * Z) :=
  match addresses with
  | [] => []
  | a :: l => (if (a =? 0) || existsb (fun j => j =? i) indices then [] else [(i, a)]) ++ unnamed indices (i + 1) l
  end.
(** the name of export number [i]: the last of the names with this index, if any *)
Definition last_name (S : bytes) (va : Z) (l : list (Z * Z)) (i : Z) (n : option bytes) : Prop :=
  match n with
  | None => ~ In i (map snd l)
  | Some n => exists a p c, l = a ++ (p, i) :: c /\ ~ In i (map snd c) /\ string_at S ((p - va) mod 2 ^ 32) n
  end.
(** the list of all exports: one for each address, all names can be read and name an address *)
Definition export_list (S : bytes) (va base : Z) (addresses names indices : list Z) (l : list pexport) : Prop :=
  zlen l = zlen addresses /\
  (forall p i, In (p, i) (combine names indices) -> 0 <= i < zlen addresses /\ exists n, string_at S ((p - va) mod 2 ^ 32) n) /\
  (forall i x, zget l i = Some x ->
     pe_ordinal x = base + i /\ (exists a, zget addresses i = Some a /\ target_of S va a (pe_target x)) /\
     last_name S va (combine names indices) i (pe_name x)).

(** * Imports *)
(** [ended enc ok null size d l cut]: [d] starts with the encodings of [l] (none of them null), and then a null item, or ([cut]) the end of the data *)
Definition ended {A} (enc : A -> bytes) (ok null : A -> Prop) (size : Z) (d : bytes) (l : list A) (cut : bool) : Prop :=
  Forall (fun x => ok x /\ ~ null x) l /\ exists rest, d = concat (map enc l) ++ rest /\
  if cut then zlen rest < size else exists z tl, rest = enc z ++ tl /\ ok z /\ null z.
Definition desc_enc (d : idesc) : bytes := word (id_original d) ++ word (id_time d) ++ word (id_chain d) ++ word (id_name d) ++ word (id_first d).
Definition desc_ok (d : idesc) : Prop := u32_ok (id_original d) /\ u32_ok (id_time d) /\ u32_ok (id_chain d) /\ u32_ok (id_name d) /\ u32_ok (id_first d).
Definition desc_null (d : idesc) : Prop := d = {| id_original := 0; id_time := 0; id_chain := 0; id_name := 0; id_first := 0 |}.
Definition descs_end : bytes -> list idesc -> bool -> Prop := ended desc_enc desc_ok desc_null 20.
(** delay load descriptors: attributes, name, module handle, address table, name table, bound table, unload table, time *)
Definition ddescs_end : bytes -> list (list Z) -> bool -> Prop := ended u32s (fun d => zlen d = 8 /\ Forall u32_ok d) (fun d => d = [0; 0; 0; 0; 0; 0; 0; 0]) 32.
(** thunks: the list ends when the 31 bits of the address are zero *)
Definition thunk_width (is64 : bool) : nat := if is64 then 8%nat else 4%nat.
Definition thunks_end (is64 : bool) : bytes -> list Z -> bool -> Prop :=
  ended (write_u Little (thunk_width is64)) (fun x => 0 <= x < 2 ^ (8 * Z.of_nat (thunk_width is64))) (fun x => x mod 2 ^ 31 = 0) (Z.of_nat (thunk_width is64)).
(** the import of a thunk: its highest bit says that it is an ordinal, otherwise it is the address of a hint and a name *)
Definition import_of (is64 : bool) (S : bytes) (sva x : Z) (i : pimport) : Prop :=
  (2 ^ (8 * Z.of_nat (thunk_width is64) - 1) <= x /\ i = IOrdinal (x mod 65536)) \/
  (x < 2 ^ (8 * Z.of_nat (thunk_width is64) - 1) /\ exists hint name, let o := (x mod 2 ^ 31 - sva) mod 2 ^ 32 in
     u16_ok hint /\ holds S o (half hint) /\ string_at S (o + 2) name /\ name <> [] /\ i = IName hint name).
(** The results for one library: [D] at [dva] has the thunks, [N] at [nva] the names *)
Inductive library_results (is64 delay : bool) (D : bytes) (dva : Z) (N : bytes) (nva name thunks : Z) : list (option rimport) -> Prop :=
| lr_no_name : (forall n, ~ string_at N ((name - nva) mod 2 ^ 32) n) -> library_results is64 delay D dva N nva name thunks [None]
| lr_no_thunks n : string_at N ((name - nva) mod 2 ^ 32) n -> zlen D < (thunks - dva) mod 2 ^ 32 -> library_results is64 delay D dva N nva name thunks [None]
| lr_thunks n l cut L : string_at N ((name - nva) mod 2 ^ 32) n -> (thunks - dva) mod 2 ^ 32 <= zlen D -> thunks_end is64 (zdrop ((thunks - dva) mod 2 ^ 32) D) l cut ->
    Forall2 (fun x => outcome (fun r : rimport => exists i, import_of is64 N nva x i /\ r = (n, as_nameord i, delay))) l L ->
    library_results is64 delay D dva N nva name thunks (L ++ if cut then [None] else []).
Definition cut_result {A} (cut : bool) : list (option A) := if cut then [None] else [].
(** The results for an import table: its descriptors and the results of each *)
Definition desc_thunks (d : idesc) : Z := if id_original d =? 0 then id_first d else id_original d.
Definition table_results (is64 : bool) (t : option imptab) (L : list (option rimport)) : Prop :=
  match t with
  | None => L = []
  | Some t => exists l cut LL, descs_end (zdrop ((it_va t - it_sva t) mod 2 ^ 32) (it_data t)) l cut /\
      Forall2 (fun d => library_results is64 false (it_data t) (it_sva t) (it_ndata t) (it_nva t) (id_name d) (desc_thunks d)) l LL /\ L = concat LL ++ cut_result cut
  end.
(** field number [i] of a delay load descriptor *)
Definition nth_word (d : list Z) (i : nat) : Z := nth i d 0.
(** a descriptor with addresses that are not relative (bit 0 of the attributes is 0) is an error *)
Definition delay_results (is64 : bool) (t : option dimptab) (L : list (option rimport)) : Prop :=
  match t with
  | None => L = []
  | Some t => exists l cut LL, ddescs_end (zdrop ((dt_va t - dt_sva t) mod 2 ^ 32) (dt_data t)) l cut /\
      Forall2 (fun d M => if Z.odd (nth_word d 0) then library_results is64 true (dt_data t) (dt_sva t) (dt_data t) (dt_sva t) (nth_word d 1) (nth_word d 4) M else M = [None]) l LL /\
      L = concat LL ++ cut_result cut
  end.
(** The libraries *)
Definition table_libraries (t : option imptab) (L : list (option (bytes * bool))) : Prop :=
  match t with
  | None => L = []
  | Some t => exists l cut M, descs_end (zdrop ((it_va t - it_sva t) mod 2 ^ 32) (it_data t)) l cut /\
      Forall2 (fun d => outcome (fun r => exists n, string_at (it_ndata t) ((id_name d - it_nva t) mod 2 ^ 32) n /\ r = (n, false))) l M /\ L = M ++ cut_result cut
  end.
Definition delay_libraries (t : option dimptab) (L : list (option (bytes * bool))) : Prop :=
  match t with
  | None => L = []
  | Some t => exists l cut M, ddescs_end (zdrop ((dt_va t - dt_sva t) mod 2 ^ 32) (dt_data t)) l cut /\
      Forall2 (fun d => outcome (fun r => Z.odd (nth_word d 0) = true /\ exists n, string_at (dt_data t) ((nth_word d 1 - dt_sva t) mod 2 ^ 32) n /\ r = (n, true))) l M /\ L = M ++ cut_result cut
  end.

(** * Resources *)
Definition pairs (l : list (Z * Z)) : bytes := concat (map (fun p => word (fst p) ++ word (snd p)) l).
(** a directory: 12 bytes, numbers of named and other entries, entries *)
Definition resource_table (S : bytes) (o : Z) (t : rtable) : Prop :=
  exists pre named ids, rt_header t = pre ++ half named ++ half ids /\ zlen pre = 12 /\ u16_ok named /\ u16_ok ids /\
    zlen (rt_entries t) = named + ids /\ Forall pair_u32 (rt_entries t) /\ holds S o (rt_header t ++ pairs (rt_entries t)).
(** what an entry refers to: the highest bit of the offset says that it is a table *)
Definition resource_entry (S : bytes) (e : Z * Z) (x : rentry) : Prop :=
  (2 ^ 31 <= snd e /\ exists t, resource_table S (snd e - 2 ^ 31) t /\ x = ETable t) \/
  (snd e < 2 ^ 31 /\ exists va size page res, holds S (snd e) (word va ++ word size ++ word page ++ word res) /\ u32_ok va /\ u32_ok size /\ u32_ok page /\ u32_ok res /\
     x = EData {| rd_va := va; rd_size := size; rd_page := page; rd_reserved := res |}).
(** a name: length and code units *)
Definition resource_name (S : bytes) (o : Z) (l : list Z) : Prop := u16_ok (zlen l) /\ Forall u16_ok l /\ holds S o (half (zlen l) ++ u16s l).

(** * Headers of an image *)
Definition sec_bytes (s : csec) : bytes :=
  c_name s ++ word (c_vsize s) ++ word (c_vaddr s) ++ word (c_rawsize s) ++ word (c_rawptr s) ++ word (c_relptr s) ++ word (c_lnptr s) ++ half (c_nrel s) ++ half (c_nln s) ++ word (c_flags s).
Definition sec_fields (s : csec) : Prop :=
  zlen (c_name s) = 8 /\ u32_ok (c_vsize s) /\ u32_ok (c_vaddr s) /\ u32_ok (c_rawsize s) /\ u32_ok (c_rawptr s) /\ u32_ok (c_relptr s) /\ u32_ok (c_lnptr s) /\
  u16_ok (c_nrel s) /\ u16_ok (c_nln s) /\ u32_ok (c_flags s).
(** DOS header at 0 ("MZ", offset of the NT headers at 60); NT headers with "PE\0\0" and the magic number of the optional header;
    data directories; section headers after the optional header *)
Definition pe_image (is64 : bool) (F dos nt : bytes) (dirs : list (Z * Z)) (secs : list csec) : Prop :=
  let opt := if is64 then 112 else 96 in
  exists off size number nsec,
    zlen dos = 64 /\ holds F 0 dos /\ holds dos 0 [77; 90] /\ holds dos 60 (word off) /\ u32_ok off /\
    zlen nt = 24 + opt /\ holds F off nt /\ holds nt 0 [80; 69; 0; 0] /\ holds nt 24 (half (if is64 then 523 else 267)) /\
    holds nt 6 (half nsec) /\ holds nt 20 (half size) /\ holds nt (20 + opt) (word number) /\ u16_ok nsec /\ u16_ok size /\ u32_ok number /\
    opt <= size /\ off + 24 + size <= zlen F /\
    zlen dirs = number /\ 8 * number <= size - opt /\ Forall pair_u32 dirs /\ holds F (off + 24 + opt) (pairs dirs) /\
    zlen secs = nsec /\ Forall sec_fields secs /\ holds F (off + 24 + size) (concat (map sec_bytes secs)).
(** * Tables of an image *)
(** the section that has an address, as far as it is in the file: its bytes and its address *)
Definition loaded (F : bytes) (t : list csec) (va : Z) (d : bytes) (a : Z) : Prop :=
  exists s, is_first (fun s => covers s va /\ c_rawptr s + mapped s <= zlen F) t s /\ d = zslice (c_rawptr s) (mapped s) F /\ a = c_vaddr s.
(** the contents of a data directory: all of it in one section *)
Definition dir_content (F : bytes) (t : list csec) (d : Z * Z) (b : bytes) : Prop :=
  exists s, is_first (fun s => covers s (fst d) /\ offset_of s (fst d) < 2 ^ 32 /\ c_rawptr s + mapped s <= zlen F) t s /\
    fst d + snd d <= c_vaddr s + mapped s /\ b = zslice (offset_of s (fst d)) (snd d) F.
(** directory number [i]; address 0 means that there is none *)
Definition has_dir (dirs : list (Z * Z)) (i : Z) (d : Z * Z) : Prop := zget dirs i = Some d /\ fst d <> 0.
(** an import table: [D] at [dva] has descriptors and thunks, [N] at [nva] the names: the section with the name of the first descriptor, if any *)
Definition import_sections (F : bytes) (t : list csec) (va : Z) (D : bytes) (dva : Z) (N : bytes) (nva : Z) : Prop :=
  loaded F t va D dva /\ exists l cut, descs_end (zdrop (va - dva) D) l cut /\
  match l with
  | [] => N = D /\ nva = dva
  | d :: _ => loaded F t (id_name d) N nva \/ ((forall n a, ~ loaded F t (id_name d) n a) /\ N = D /\ nva = dva)
  end.
(** * Debug directory *)
(** an entry (28 bytes): type at 12, size at 16, file offset at 24 *)
Definition debug_data (F d x : bytes) : Prop := holds F (fld Little 24 4 d) x /\ zlen x = fld Little 16 4 d.
(** a CodeView record: "RSDS", GUID, age, null terminated path *)
Definition pdb_record (F d path guid : bytes) (age : Z) : Prop :=
  fld Little 12 4 d = 2 /\ exists x, debug_data F d x /\ holds x 0 ([82; 83; 68; 83] ++ guid ++ word age) /\ zlen guid = 16 /\ u32_ok age /\ string_at x 24 path.
(** an entry that is not one *)
Definition not_pdb (F d : bytes) : Prop :=
  fld Little 12 4 d <> 2 \/ exists x, debug_data F d x /\ 4 <= zlen x /\ ztake 4 x <> [82; 83; 68; 83].
Definition debug_entries (b : bytes) (l : list bytes) : Prop := b = concat l /\ Forall (fun d => zlen d = 28) l.
(** the first CodeView record of the entries [l] *)
Definition pdb_found (F : bytes) (l : list bytes) (path guid : bytes) (age : Z) : Prop :=
  exists a d c, l = a ++ d :: c /\ Forall (not_pdb F) a /\ pdb_record F d path guid age.
