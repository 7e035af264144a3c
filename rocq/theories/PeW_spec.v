(** Specification vocabulary for written PE images. *)
From Coq Require Import Sorted.
From Verif Require Export PeW_model Pe_spec Core_spec.

(** * The input *)
Definition power_of_2 (x : Z) : Prop := exists k, 0 <= k < 32 /\ x = 2 ^ k.
Definition item_name (i : pitem) : bytes :=
  match i with
  | PText _ => str ".text" ++ [0; 0; 0] | PData _ _ => str ".data" ++ [0; 0; 0] | PRdata _ => str ".rdata" ++ [0; 0] | PBss _ => str ".bss" ++ [0; 0; 0; 0]
  | PIdata _ => str ".idata" ++ [0; 0] | PEdata _ => str ".edata" ++ [0; 0] | PPdata _ => str ".pdata" ++ [0; 0] | PXdata _ => str ".xdata" ++ [0; 0]
  | PRsrc _ => str ".rsrc" ++ [0; 0; 0] | PReloc => str ".reloc" ++ [0; 0] | PCustom n _ _ _ => n
  end.
(** characteristics: code 0x20, initialized data 0x40, uninitialized data 0x80, discardable 0x2000000, execute 0x20000000, read 0x40000000, write 0x80000000 *)
Definition item_flags (i : pitem) : Z :=
  match i with
  | PText _ => 0x20 + 0x20000000 + 0x40000000 | PData _ _ | PIdata _ => 0x40 + 0x40000000 + 0x80000000 | PBss _ => 0x80 + 0x40000000 + 0x80000000
  | PRdata _ | PEdata _ | PPdata _ | PXdata _ | PRsrc _ => 0x40 + 0x40000000 | PReloc => 0x40 + 0x2000000 + 0x40000000 | PCustom _ f _ _ => f
  end.
(** the contents in the file; [R] is the encoding of the base relocations *)
Definition item_content (R : bytes) (i : pitem) : bytes :=
  match i with
  | PText d | PData _ d | PRdata d | PIdata d | PEdata d | PPdata d | PXdata d | PRsrc d | PCustom _ _ _ d => d
  | PBss _ => []
  | PReloc => R
  end.
Definition item_vsize (R : bytes) (i : pitem) : Z := match i with PData v _ | PBss v | PCustom _ _ v _ => v | i => zlen (item_content R i) end.
(** the data directory that is set for a kind of section *)
Definition item_dir (i : pitem) : option Z :=
  match i with PEdata _ => Some 0 | PIdata _ => Some 1 | PRsrc _ => Some 2 | PPdata _ => Some 3 | PReloc => Some 5 | _ => None end.
Definition u8_ok (x : Z) : Prop := 0 <= x < 2 ^ 8.
Definition item_ok (i : pitem) : Prop :=
  zlen (item_name i) = 8 /\ bytes_ok (item_name i) /\ u32_ok (item_flags i) /\ bytes_ok (item_content [] i) /\ u32_ok (item_vsize [] i) /\ u32_ok (zlen (item_content [] i)).
Definition base_ok (is64 : bool) (x : Z) : Prop := 0 <= x < if is64 then 2 ^ 64 else 2 ^ 32.
Definition pnt_ok (is64 : bool) (n : pnt) : Prop :=
  u16_ok (pn_machine n) /\ u32_ok (pn_time n) /\ u16_ok (pn_flags n) /\ u8_ok (pn_majlink n) /\ u8_ok (pn_minlink n) /\ u32_ok (pn_entry n) /\ base_ok is64 (pn_base n) /\
  u16_ok (pn_majos n) /\ u16_ok (pn_minos n) /\ u16_ok (pn_majimg n) /\ u16_ok (pn_minimg n) /\ u16_ok (pn_majsub n) /\ u16_ok (pn_minsub n) /\ u16_ok (pn_subsystem n) /\ u16_ok (pn_dll n) /\
  base_ok is64 (pn_stackr n) /\ base_ok is64 (pn_stackc n) /\ base_ok is64 (pn_heapr n) /\ base_ok is64 (pn_heapc n).
Definition reloc_ok (r : Z * Z) : Prop := u32_ok (fst r) /\ 0 <= snd r < 16.
Definition dos_ok (d : pdos) : Prop :=
  match d with DosCustom h s => zlen h = 60 /\ bytes_ok h /\ bytes_ok s /\ u32_ok (zlen s) /\ holds h 0 [77; 90] | _ => True end.
Definition img_ok (img : pimg) : Prop :=
  let c := pi_cfg img in
  power_of_2 (pc_salign c) /\ power_of_2 (pc_falign c) /\ dos_ok (pi_dos img) /\ bytes_ok (pi_rich img) /\ u32_ok (zlen (pi_rich img)) /\ pnt_ok (pc_is64 c) (pi_nt img) /\
  0 <= pi_ndirs img /\ 112 + 8 * pi_ndirs img < 2 ^ 16 /\ Forall reloc_ok (pi_relocs img) /\ u16_ok (zlen (pi_items img)) /\ Forall item_ok (pi_items img) /\
  Forall (fun s => pair_u32 (snd s)) (pi_sets img) /\ match pi_cert img with Some d => bytes_ok d /\ u32_ok (zlen d) | None => True end.

(** * Base relocations *)
Definition page_of (va : Z) : Z := va - va mod 4096.
(** an entry of type 0 at the start of a page is all zeros: it is taken for padding *)
Definition kept (r : Z * Z) : bool := negb ((fst r mod 4096 =? 0) && (snd r =? 0)).
Definition reloc_section (l : list (Z * Z)) (R : bytes) : Prop :=
  exists blocks, seq_of block_enc [] blocks R /\ concat (map block_relocs blocks) = filter kept l /\ StronglySorted Z.lt (map rb_va blocks).

(** * The file *)
(** the least multiple of [s] that is not below [x] *)
Definition round_up (x s : Z) : Z := (x + (s - 1)) / s * s.
(** DOS header before the offset of the NT headers, and stub *)
Definition dos_bytes (d : pdos) : bytes * bytes :=
  match d with
  | DosEmpty => ([77; 90] ++ zeros 58, [])
  | DosFixed => ([77; 90] ++ [144; 0; 3; 0; 0; 0; 4; 0; 0; 0; 255; 255; 0; 0; 184; 0; 0; 0; 0; 0; 0; 0; 64; 0] ++ zeros 34,
      [14; 31; 186; 14; 0; 180; 9; 205; 33; 184; 1; 76; 205; 33] ++ str "This program cannot be run in DOS mode." ++ [13; 13; 10; 36] ++ zeros 7)
  | DosCustom h s => (h, s)
  end.
(** sections follow each other in memory from address [va] *)
Fixpoint in_memory (salign va : Z) (l : list csec) : Prop :=
  match l with [] => True | s :: l => c_vaddr s = va /\ in_memory salign (round_up (va + c_vsize s) salign) l end.
Definition memory_end (salign va : Z) (l : list csec) : Z := fold_left (fun va s => round_up (va + c_vsize s) salign) l va.
(** sections follow each other in the file from offset [o]; those without contents have offset 0 *)
Fixpoint in_file_order (o : Z) (l : list csec) : Prop :=
  match l with
  | [] => True
  | s :: l => if c_rawsize s =? 0 then c_rawptr s = 0 /\ in_file_order o l else c_rawptr s = o /\ in_file_order (o + c_rawsize s) l
  end.
Definition file_end (o : Z) (l : list csec) : Z := fold_left (fun o s => o + c_rawsize s) l o.
(** a section of the file and what it was made of *)
Definition section_of (falign : Z) (F R : bytes) (i : pitem) (s : csec) : Prop :=
  let d := item_content R i in
  c_name s = item_name i /\ c_flags s = item_flags i /\ c_vsize s = item_vsize R i /\ c_rawsize s = round_up (zlen d) falign /\
  c_relptr s = 0 /\ c_lnptr s = 0 /\ c_nrel s = 0 /\ c_nln s = 0 /\
  (d <> [] -> holds F (c_rawptr s) (d ++ zeros (c_rawsize s - zlen d))).
(** sizes and first address of the sections with a flag and without others *)
Definition first_address (P : csec -> bool) (l : list csec) : Z := match find P l with Some s => c_vaddr s | None => 0 end.
Definition flagged (yes : Z) (no : list Z) (s : csec) : bool := Z.testbit (c_flags s) yes && forallb (fun b => negb (Z.testbit (c_flags s) b)) no.
Definition total_size (falign : Z) (P : csec -> bool) (l : list csec) : Z := fold_right Z.add 0 (map (fun s => round_up (c_vsize s) falign) (filter P l)).
(** the NT headers: fields as offset, size and value *)
Definition nt_table (img : pimg) (secs : list csec) (H : Z) : list (Z * Z * Z) :=
  let c := pi_cfg img in let n := pi_nt img in let is64 := pc_is64 c in let sa := pc_salign c in let fa := pc_falign c in
  let code := flagged 5 [] in let data := flagged 6 [5] in let bss := flagged 7 [5; 6] in let w := if is64 then 8 else 4 in
  [(0, 4, 0x4550); (4, 2, pn_machine n); (6, 2, zlen secs); (8, 4, pn_time n); (12, 4, 0); (16, 4, 0); (20, 2, (if is64 then 112 else 96) + 8 * pi_ndirs img); (22, 2, pn_flags n);
   (24, 2, if is64 then 0x20b else 0x10b); (26, 1, pn_majlink n); (27, 1, pn_minlink n); (28, 4, total_size fa code secs); (32, 4, total_size fa data secs); (36, 4, total_size fa bss secs);
   (40, 4, pn_entry n); (44, 4, first_address code secs); (if is64 then (48, 8, pn_base n) else (52, 4, pn_base n)); (56, 4, sa); (60, 4, fa);
   (64, 2, pn_majos n); (66, 2, pn_minos n); (68, 2, pn_majimg n); (70, 2, pn_minimg n); (72, 2, pn_majsub n); (74, 2, pn_minsub n); (76, 4, 0);
   (80, 4, memory_end sa (round_up H sa) secs); (84, 4, H); (88, 4, 0); (92, 2, pn_subsystem n); (94, 2, pn_dll n);
   (96, w, pn_stackr n); (96 + w, w, pn_stackc n); (96 + 2 * w, w, pn_heapr n); (96 + 3 * w, w, pn_heapc n); (96 + 4 * w, 4, 0); (100 + 4 * w, 4, pi_ndirs img)] ++
  (if is64 then [] else [(48, 4, first_address (fun s => data s || bss s) secs)]).
(** the data directories: the last value set by the caller, or that of a section; the certificate table *)
Definition dir_of_section (img : pimg) (secs : list csec) (i : Z) : Z * Z :=
  match find (fun '(it, _) => match item_dir it with Some j => j =? i | None => false end) (combine (pi_items img) secs) with
  | Some (_, s) => (c_vaddr s, c_vsize s)
  | None => (0, 0)
  end.
Definition dir_expected (img : pimg) (secs : list csec) (cert : Z) (i : Z) : Z * Z :=
  match pi_cert img with
  | Some d => if i =? 4 then (cert, round_up (zlen d) 8) else
      match find (fun x => fst x =? i) (rev (pi_sets img)) with Some (_, d) => d | None => dir_of_section img secs i end
  | None => match find (fun x => fst x =? i) (rev (pi_sets img)) with Some (_, d) => d | None => dir_of_section img secs i end
  end.
(** [written img len F f]: the file [F], and what is read from it, are as [img] says *)
Definition written (img : pimg) (len : Z) (F : bytes) (f : pefile) : Prop :=
  let c := pi_cfg img in let opt := if pc_is64 c then 112 else 96 in
  let '(dos, stub) := dos_bytes (pi_dos img) in
  let o_rich := round_up (64 + zlen stub) 4 in
  let o_nt := round_up (match pi_rich img with [] => 64 + zlen stub | x => o_rich + zlen x end) 8 in
  let H := round_up (o_nt + 24 + opt + 8 * pi_ndirs img + 40 * zlen (pi_items img)) (pc_falign c) in
  exists R cert,
    pf_dos f = dos ++ word o_nt /\ holds F 64 stub /\ (pi_rich img <> [] -> holds F o_rich (pi_rich img)) /\
    Forall (fun '(o, w, v) => fld Little o w (pf_nt f) = v) (nt_table img (pf_sections f) H) /\
    zlen (pf_dirs f) = pi_ndirs img /\ (forall i d, zget (pf_dirs f) i = Some d -> d = dir_expected img (pf_sections f) cert i) /\
    (In PReloc (pi_items img) -> reloc_section (pi_relocs img) R) /\
    Forall2 (section_of (pc_falign c) F R) (pi_items img) (pf_sections f) /\
    in_memory (pc_salign c) (round_up H (pc_salign c)) (pf_sections f) /\ in_file_order H (pf_sections f) /\
    match pi_cert img with
    | None => len = file_end H (pf_sections f)
    | Some d => cert = (match d with [] => file_end H (pf_sections f) | _ => round_up (file_end H (pf_sections f)) 8 end) /\ holds F cert (d ++ zeros (len - cert - zlen d)) /\ len = cert + round_up (zlen d) 8
    end /\
    (pi_cert img <> None \/ (exists i, In i (pi_items img) /\ item_content R i <> []) -> zlen F = len).
