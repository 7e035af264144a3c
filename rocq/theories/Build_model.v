(** Model of the editing operations of src/build/elf.rs and src/build/macho.rs: deletion of orphans and
    of unused versions, and the layout of sections in segments.  Definitions only.
    Tables are [Tab_model]'s lists; an item's id is its position (for versions: position + 2). *)
From Verif Require Export Core_model Tab_model.

(** elf.rs 2925-2955 [Dynamic] *)
Inductive bdyn := DAuto (tag : Z) | DInteger (tag val : Z) | DString (tag : Z) (val : bytes).
(** elf.rs 2896-2908 [Relocation] (static and dynamic) *)
Record brel := { r_offset : Z; r_symbol : option Z; r_type : Z; r_addend : Z }.
(** elf.rs 2671-2717 [SectionData]; the contents of an attributes section are kept abstract as bytes *)
Inductive sdata :=
| SData (d : bytes) | SUninit (len : Z) | SRel (l : list brel) | SDynRel (l : list brel) | SNote (d : bytes)
| SDynamic (l : list bdyn) | SAttributes (d : bytes) | SSectionString | SSymbol | SSymbolIndex | SString
| SDynamicSymbol | SDynamicString | SHash | SGnuHash | SGnuVersym | SGnuVerdef | SGnuVerneed.
(** elf.rs 2587-2635 [Section] *)
Record bsec := {
  s_del : bool; s_name : bytes; s_type : Z; s_flags : Z; s_addr : Z; s_offset : Z; s_size : Z;
  s_link : option Z; s_info : Z; s_info_section : option Z; s_align : Z; s_entsize : Z; s_data : sdata }.
(** elf.rs 2311-2344 [Segment] *)
Record bseg := {
  g_del : bool; g_type : Z; g_flags : Z; g_offset : Z; g_vaddr : Z; g_paddr : Z; g_filesz : Z; g_memsz : Z;
  g_align : Z; g_secs : list Z }.
(** elf.rs 2801-2828 [Symbol] (static and dynamic) *)
Record bsym := {
  m_del : bool; m_name : bytes; m_section : option Z; m_info : Z; m_other : Z; m_shndx : Z; m_value : Z;
  m_size : Z; m_version : Z; m_hidden : bool }.
(** elf.rs 3108-3148 [VersionData] *)
Inductive vdata := VDef (names : list bytes) (flags : Z) | VNeed (file : Z) (name : bytes) (flags : Z).
(** elf.rs 3083-3089 [Version], 2996-3002 [VersionFile] *)
Record bver := { v_del : bool; v_data : vdata }.
Record bfile := { f_del : bool; f_name : bytes }.
(** elf.rs 23 [Builder]: the tables *)
Record builder := {
  b_segs : list bseg; b_secs : list bsec; b_syms : list bsym; b_dynsyms : list bsym;
  b_files : list bfile; b_vers : list bver }.

Definition sec_with_data (s : bsec) (d : sdata) : bsec :=
  Build_bsec (s_del s) (s_name s) (s_type s) (s_flags s) (s_addr s) (s_offset s) (s_size s) (s_link s) (s_info s)
    (s_info_section s) (s_align s) (s_entsize s) d.
Definition sec_placed (s : bsec) (offset addr : Z) : bsec :=
  Build_bsec (s_del s) (s_name s) (s_type s) (s_flags s) addr offset (s_size s) (s_link s) (s_info s)
    (s_info_section s) (s_align s) (s_entsize s) (s_data s).
Definition seg_with (g : bseg) (del : bool) (l : list Z) : bseg :=
  Build_bseg del (g_type g) (g_flags g) (g_offset g) (g_vaddr g) (g_paddr g) (g_filesz g) (g_memsz g) (g_align g) l.
Definition seg_ranged (g : bseg) (offset vaddr paddr filesz memsz : Z) : bseg :=
  Build_bseg (g_del g) (g_type g) (g_flags g) offset vaddr paddr filesz memsz (g_align g) (g_secs g).
Definition sym_deleted (m : bsym) : bsym :=
  Build_bsym true (m_name m) (m_section m) (m_info m) (m_other m) (m_shndx m) (m_value m) (m_size m) (m_version m) (m_hidden m).

(** table.rs 78-85 and [TableIterMut]: [for item in &mut table], which visits the items that are not deleted *)
Fixpoint each_live {T} (del : T -> bool) (f : T -> out T) (t : list T) : out (list T) :=
  match t with
  | [] => Ok []
  | x :: t => y <- (if del x then Ok x else f x) ;; t' <- each_live del f t ;; Ok (y :: t')
  end.
(** [Vec::retain] with a closure that may panic *)
Fixpoint retain {A} (keep : A -> out bool) (l : list A) : out (list A) :=
  match l with
  | [] => Ok []
  | x :: l => k <- keep x ;; l' <- retain keep l ;; Ok (if (k : bool) then x :: l' else l')
  end.

(** elf.rs 1851-1861 [delete_orphan_segments]; macho.rs 1128-1138 is the same code on the same fields *)
Definition delete_orphan_segments {S} (deleted : S -> bool) (secs : list S) (segs : list bseg) : out (list bseg) :=
  each_live g_del (fun g =>
    match g_secs g with
    | [] => Ok g
    | l => l' <- retain (fun id => s <- tab_get secs id ;; Ok (negb (deleted s))) l ;;
           Ok (seg_with g (match l' with [] => true | _ => false end) l')
    end) segs.
(** elf.rs 1864-1879 [delete_orphan_symbols], one of its two loops; macho.rs 1141-1149 *)
Definition delete_orphan_symbols {S} (deleted : S -> bool) (secs : list S) (syms : list bsym) : out (list bsym) :=
  each_live m_del (fun m =>
    match m_section m with
    | None => Ok m
    | Some id => s <- tab_get secs id ;; Ok (if deleted s then sym_deleted m else m)
    end) syms.
(** elf.rs 1882-1902 [delete_orphan_relocations] *)
Definition keep_rel (syms : list bsym) (r : brel) : out bool :=
  match r_symbol r with None => Ok true | Some id => m <- tab_get syms id ;; Ok (negb (m_del m)) end.
Definition delete_orphan_relocations (b : builder) : out (list bsec) :=
  each_live s_del (fun s =>
    match s_data s with
    | SRel l => l' <- retain (keep_rel (b_syms b)) l ;; Ok (sec_with_data s (SRel l'))
    | SDynRel l => l' <- retain (keep_rel (b_dynsyms b)) l ;; Ok (sec_with_data s (SDynRel l'))
    | _ => Ok s
    end) (b_secs b).
(** src/elf.rs 2164-2301 *)
Definition DT_HASH := 4. Definition DT_STRTAB := 5. Definition DT_SYMTAB := 6. Definition DT_STRSZ := 10.
Definition DT_GNU_HASH := 0x6ffffef5. Definition DT_VERSYM := 0x6ffffff0. Definition DT_VERDEF := 0x6ffffffc.
Definition DT_VERDEFNUM := 0x6ffffffd. Definition DT_VERNEED := 0x6ffffffe. Definition DT_VERNEEDNUM := 0x6fffffff.
(** elf.rs 1905-1958 [delete_orphan_dynamics] *)
Definition have (secs : list bsec) (is : sdata -> bool) : bool := existsb (fun s => is (s_data s)) (tab_iter s_del secs).
Definition keep_dyn (secs : list bsec) (d : bdyn) : bool :=
  match d with
  | DAuto tag =>
      if tag =? DT_SYMTAB then have secs (fun d => match d with SDynamicSymbol => true | _ => false end)
      else if (tag =? DT_STRTAB) || (tag =? DT_STRSZ) then have secs (fun d => match d with SDynamicString => true | _ => false end)
      else if tag =? DT_HASH then have secs (fun d => match d with SHash => true | _ => false end)
      else if tag =? DT_GNU_HASH then have secs (fun d => match d with SGnuHash => true | _ => false end)
      else if tag =? DT_VERSYM then have secs (fun d => match d with SGnuVersym => true | _ => false end)
      else if (tag =? DT_VERNEED) || (tag =? DT_VERNEEDNUM) then have secs (fun d => match d with SGnuVerneed => true | _ => false end)
      else if (tag =? DT_VERDEF) || (tag =? DT_VERDEFNUM) then have secs (fun d => match d with SGnuVerdef => true | _ => false end)
      else true
  | _ => true
  end.
Definition delete_orphan_dynamics (secs : list bsec) : out (list bsec) :=
  each_live s_del (fun s =>
    match s_data s with
    | SDynamic l => l' <- retain (fun d => Ok (keep_dyn secs d)) l ;; Ok (sec_with_data s (SDynamic l'))
    | _ => Ok s
    end) secs.
(** elf.rs 1843-1848 [delete_orphans] *)
Definition with_segs (b : builder) l := Build_builder l (b_secs b) (b_syms b) (b_dynsyms b) (b_files b) (b_vers b).
Definition with_secs (b : builder) l := Build_builder (b_segs b) l (b_syms b) (b_dynsyms b) (b_files b) (b_vers b).
Definition with_syms (b : builder) l d := Build_builder (b_segs b) (b_secs b) l d (b_files b) (b_vers b).
Definition with_vers (b : builder) f v := Build_builder (b_segs b) (b_secs b) (b_syms b) (b_dynsyms b) f v.
Definition delete_orphans (b : builder) : out builder :=
  segs <- delete_orphan_segments s_del (b_secs b) (b_segs b) ;;
  let b := with_segs b segs in
  syms <- delete_orphan_symbols s_del (b_secs b) (b_syms b) ;;
  dynsyms <- delete_orphan_symbols s_del (b_secs b) (b_dynsyms b) ;;
  let b := with_syms b syms dynsyms in
  secs <- delete_orphan_relocations b ;;
  let b := with_secs b secs in
  secs <- delete_orphan_dynamics (b_secs b) ;;
  Ok (with_secs b secs).

(** [v[i] = true] on a vector of booleans *)
Definition mark (v : list bool) (i : Z) : out (list bool) := _ <- unwrap (zget v i) ;; Ok (zset v i true).
Definition VERSION_ID_BASE := 2.
(** "GLIBC_ABI_DT_RELR" (elf.rs 1970) *)
Definition relr_name : bytes := [71;76;73;66;67;95;65;66;73;95;68;84;95;82;69;76;82].
(** elf.rs 1963-1965, the loop over the live dynamic symbols *)
Fixpoint mark_symbols (used : list bool) (l : list bsym) : out (list bool) :=
  match l with [] => Ok used | m :: l => used <- mark used (m_version m) ;; mark_symbols used l end.
(** elf.rs 1967-1982, the loop over the live versions; [id] is the id of the first version of [l] *)
Fixpoint mark_versions (used fused : list bool) (id : Z) (l : list bver) : out (list bool * list bool * list bver) :=
  match l with
  | [] => Ok (used, fused, [])
  | v :: l =>
      if v_del v then
        ' p <- mark_versions used fused (id + 1) l ;; let '(used, fused, l) := p in Ok (used, fused, v :: l)
      else
        used <- match v_data v with
                | VNeed _ name _ => if bytes_eqb name relr_name then mark used id else Ok used
                | _ => Ok used
                end ;;
        u <- unwrap (zget used id) ;;
        if negb (u : bool) then
          ' p <- mark_versions used fused (id + 1) l ;;
          let '(used, fused, l) := p in Ok (used, fused, Build_bver true (v_data v) :: l)
        else
          fused <- match v_data v with VNeed file _ _ => mark fused file | _ => Ok fused end ;;
          ' p <- mark_versions used fused (id + 1) l ;; let '(used, fused, l) := p in Ok (used, fused, v :: l)
  end.
(** elf.rs 1983-1987, the loop over the live version files *)
Fixpoint unused_files (fused : list bool) (id : Z) (l : list bfile) : out (list bfile) :=
  match l with
  | [] => Ok []
  | f :: l =>
      f' <- (if f_del f then Ok f else u <- unwrap (zget fused id) ;; Ok (if (u : bool) then f else Build_bfile true (f_name f))) ;;
      l' <- unused_files fused (id + 1) l ;; Ok (f' :: l')
  end.
(** elf.rs 1961-1989 [delete_unused_versions] *)
Definition delete_unused_versions (b : builder) : out builder :=
  let used := repeat false (length (b_vers b) + 2) in
  used <- mark_symbols used (tab_iter m_del (b_dynsyms b)) ;;
  let fused := repeat false (length (b_files b)) in
  ' p <- mark_versions used fused VERSION_ID_BASE (b_vers b) ;;
  let '(used, fused, vers) := p in
  files <- unused_files fused 0 (b_files b) ;;
  Ok (with_vers b files vers).

(** * Mach-O *)
(** macho.rs 1533-1555 [Relocation], [RelocationTarget] *)
Inductive mtarget := MSymbol (id : Z) | MSection (id : Z).
Record mrel := { mr_target : mtarget; mr_address : Z; mr_pcrel : bool; mr_length : Z; mr_type : Z }.
(** macho.rs 1429-1480 [Section]: the parts the operations below use *)
Record msec := { ms_del : bool; ms_data : bytes; ms_relocs : list mrel }.
(** macho.rs 1217-1272 [LoadCommand]; the other commands are kept abstract as bytes *)
Inductive mcmd := MSegment (id : Z) | MDylib (id : Z) | MOther (cmd : Z) (data : bytes).
Record mdylib := { md_del : bool; md_name : bytes }.
(** macho.rs 19 [Builder]: the tables; segments and symbols have the same deletion fields as ELF's *)
Record mbuilder := {
  mb_segs : list bseg; mb_secs : list msec; mb_syms : list bsym; mb_dylibs : list mdylib; mb_cmds : list mcmd }.
(** macho.rs 1152-1167 [delete_orphan_relocations]; the vector of deletion flags is collected from
    [self.sections.iter()], which yields only the sections that are not deleted *)
Definition m_delete_orphan_relocations (b : mbuilder) : out (list msec) :=
  let sections := map ms_del (tab_iter ms_del (mb_secs b)) in
  each_live ms_del (fun s =>
    l' <- retain (fun r => match mr_target r with
                           | MSymbol id => m <- tab_get (mb_syms b) id ;; Ok (negb (m_del m))
                           | MSection id => d <- unwrap (zget sections id) ;; Ok (negb (d : bool))
                           end) (ms_relocs s) ;;
    Ok (Build_msec (ms_del s) (ms_data s) l')) (mb_secs b).
(** macho.rs 1170-1178 [delete_orphan_load_commands] *)
Definition m_delete_orphan_commands (b : mbuilder) : out (list mcmd) :=
  retain (fun c => match c with
                   | MSegment id => g <- tab_get (mb_segs b) id ;; Ok (negb (g_del g))
                   | MDylib id => d <- tab_get (mb_dylibs b) id ;; Ok (negb (md_del d))
                   | _ => Ok true
                   end) (mb_cmds b).
(** macho.rs 1120-1125 [delete_orphans] *)
Definition m_delete_orphans (b : mbuilder) : out mbuilder :=
  segs <- delete_orphan_segments ms_del (mb_secs b) (mb_segs b) ;;
  let b := Build_mbuilder segs (mb_secs b) (mb_syms b) (mb_dylibs b) (mb_cmds b) in
  syms <- delete_orphan_symbols ms_del (mb_secs b) (mb_syms b) ;;
  let b := Build_mbuilder (mb_segs b) (mb_secs b) syms (mb_dylibs b) (mb_cmds b) in
  secs <- m_delete_orphan_relocations b ;;
  let b := Build_mbuilder (mb_segs b) secs (mb_syms b) (mb_dylibs b) (mb_cmds b) in
  cmds <- m_delete_orphan_commands b ;;
  Ok (Build_mbuilder (mb_segs b) (mb_secs b) (mb_syms b) (mb_dylibs b) cmds).

(** * Layout of ELF sections in segments *)
Definition PT_LOAD := 1.
Definition SHT_NOBITS := 8.
(** elf.rs 2361-2363 *)
Definition is_load (g : bseg) : bool := g_type g =? PT_LOAD.
(** elf.rs 2366-2368 [contains_offset] *)
Definition contains_offset (g : bseg) (o : Z) : bool := (g_offset g <=? o) && (o - g_offset g <? g_filesz g).
(** elf.rs 2373-2376 [address_from_offset] *)
Definition address_from_offset (g : bseg) (o : Z) : Z := wrap_u 64 (g_vaddr g + wrap_u 64 (o - g_offset g)).
(** elf.rs 2379-2381 [contains_address] *)
Definition contains_address (g : bseg) (a : Z) : bool := (g_vaddr g <=? a) && (a - g_vaddr g <? g_memsz g).
(** elf.rs 2420-2447 [append_section_range] *)
Definition append_section_range (g : bseg) (s : bsec) : out bseg :=
  let fsize := if s_type s =? SHT_NOBITS then 0 else s_size s in
  if g_memsz g =? 0 then Ok (seg_ranged g (s_offset s) (s_addr s) (s_addr s) fsize (s_size s))
  else
    let offset := if s_offset s <? g_offset g then s_offset s else g_offset g in
    e <- padd 64 (s_offset s) fsize ;;
    filesz <- psub e offset ;;
    let filesz := if g_filesz g <? filesz then filesz else g_filesz g in
    let '(vaddr, paddr) := if s_addr s <? g_vaddr g then (s_addr s, s_addr s) else (g_vaddr g, g_paddr g) in
    e <- padd 64 (s_addr s) (s_size s) ;;
    memsz <- psub e vaddr ;;
    let memsz := if g_memsz g <? memsz then memsz else g_memsz g in
    Ok (seg_ranged g offset vaddr paddr filesz memsz).
(** elf.rs 2402-2404 [(x + n + (align - 1)) & !(align - 1)] *)
Definition end_aligned (x n al : Z) : out Z :=
  e <- padd 64 x n ;; m <- psub al 1 ;; r <- padd 64 e m ;; Ok (Z.land r (2 ^ 64 - 1 - m)).
(** elf.rs 2399-2411 [append_section]; [id] is the section's id.  The changed section is returned. *)
Definition append_section (g : bseg) (id : Z) (s : bsec) : out (bseg * bsec) :=
  if negb (g_filesz g =? g_memsz g) then Panic
  else
    s <- (if is_load g then
            offset <- end_aligned (g_offset g) (g_filesz g) (s_align s) ;;
            addr <- end_aligned (g_paddr g) (g_memsz g) (s_align s) ;;
            Ok (sec_placed s offset addr)
          else Ok s) ;;
    g <- append_section_range g s ;;
    Ok (seg_with g (g_del g) (g_secs g ++ [id]), s).
(** Driving [append_section] over sections of a table (the loop of crates/rewrite/src/elf.rs 726-731,
    or a sequence of calls): the ids in order *)
Fixpoint append_sections (g : bseg) (secs : list bsec) (ids : list Z) : out (bseg * list bsec) :=
  match ids with
  | [] => Ok (g, secs)
  | id :: ids =>
      s <- tab_get secs id ;;
      ' p <- append_section g id s ;;
      append_sections (fst p) (zset secs id (snd p)) ids
  end.
(** elf.rs 2455-2469 [recalculate_ranges] *)
Fixpoint append_ranges (g : bseg) (secs : list bsec) (ids : list Z) : out bseg :=
  match ids with
  | [] => Ok g
  | id :: ids => s <- tab_get secs id ;; g <- append_section_range g s ;; append_ranges g secs ids
  end.
Definition recalculate_ranges (g : bseg) (secs : list bsec) : out bseg :=
  let g0 := seg_ranged g 0 0 0 0 0 in
  g' <- append_ranges (seg_with g0 (g_del g) []) secs (g_secs g) ;;
  Ok (seg_with g' (g_del g) (g_secs g)).
(** elf.rs 2510-2522, the two maxima *)
Fixpoint seg_ends (mo ma : Z) (l : list bseg) : out (Z * Z) :=
  match l with
  | [] => Ok (mo, ma)
  | g :: l =>
      o <- padd 64 (g_offset g) (g_filesz g) ;;
      a <- padd 64 (g_vaddr g) (g_memsz g) ;;
      seg_ends (if mo <? o then o else mo) (if ma <? a then a else ma) l
  end.
(** elf.rs 2505-2535 [add_load_segment]: the new segment (its id is the length of the table) *)
Definition add_load_segment (segs : list bseg) (flags al : Z) : out bseg :=
  ' p <- seg_ends 0 0 (tab_iter g_del segs) ;;
  let '(offset, ma) := p in
  a <- end_aligned ma 0 al ;;
  m <- psub al 1 ;;
  addr <- padd 64 a (Z.land offset m) ;;
  Ok (Build_bseg false PT_LOAD flags offset addr addr 0 0 al []).
(** elf.rs 2544-2558 [copy] *)
Definition copy_segment (segs : list bseg) (id : Z) : out bseg :=
  g <- tab_get segs id ;;
  if is_load g then add_load_segment segs (g_flags g) (g_align g)
  else Ok (Build_bseg false (g_type g) (g_flags g) 0 0 0 0 0 (g_align g) []).
