(** Model of the imports, exports and libraries of Mach-O files: src/read/macho/import.rs, export.rs and file.rs 250-259. *)
From Verif Require Export Mach_model Trie_model Dyld_model Fix_model.

(** * Commands *)
(** load_command.rs 234-245 [dylib] (src/macho.rs 1855-1882): cmd, size, name, timestamp, current and compatibility version *)
Definition is_dylib (c : lcmd) : bool := zmem (lc_cmd c) [0xc; 0x80000018; 0x8000001f; 0x20; 0x80000023].
Definition lc_dylib (c : lcmd) : out (option bytes) := if is_dylib c then b <- lc_struct c 24 ;; Ok (Some b) else Ok None.
(** load_command.rs 256-272 [dylib_use_flags] *)
Definition dylib_use_flags (e : endian) (c : lcmd) (d : bytes) : out (option Z) :=
  if negb (fld e 8 4 d =? 28) || negb (fld e 12 4 d =? 0x1a741800) then Ok None else
  b <- b_read_at (lc_data c) 24 4 ;; Ok (Some (fld e 0 4 b)).
(** load_command.rs 295-301 [dyld_info] (src/macho.rs 2801-2913), 304-310 [dyld_exports_trie], 313-319 [dyld_chained_fixups] *)
Definition lc_dyld_info (c : lcmd) : out (option bytes) := if zmem (lc_cmd c) [0x22; 0x80000022] then b <- lc_struct c 48 ;; Ok (Some b) else Ok None.
Definition lc_exports_trie (c : lcmd) : out (option bytes) := if lc_cmd c =? 0x80000033 then b <- lc_struct c 16 ;; Ok (Some b) else Ok None.
Definition lc_chained_fixups (c : lcmd) : out (option bytes) := if lc_cmd c =? 0x80000034 then b <- lc_struct c 16 ;; Ok (Some b) else Ok None.
(** The loops [while let Some(command) = commands.next()? { .. }] of this file; [fuel] is more than the number of commands. *)
Fixpoint cmds_fold {A} (fuel : nat) (e : endian) (it : lcit) (step : A -> lcmd -> out A) (acc : A) : out A :=
  match fuel with
  | O => Panic
  | S fuel =>
    match lc_next e it with
    | (Ok (Some c), it) => acc <- step acc c ;; cmds_fold fuel e it step acc
    | (Ok None, _) => Ok acc
    | (Err, _) => Err
    | (Panic, _) => Panic
    end
  end.
Definition mf_cmds_fold {A} (f : mfile) (step : A -> lcmd -> out A) (acc : A) : out A :=
  it <- mach_load_commands (mf_64 f) (mf_endian f) (mf_header f) (mf_data f) 0 ;;
  cmds_fold (S (Z.to_nat (li_ncmds it))) (mf_endian f) it step acc.

(** * Libraries *)
(** file.rs 250-259 [libraries] *)
Definition libraries_step (e : endian) (acc : list bytes) (c : lcmd) : out (list bytes) :=
  d <- lc_dylib c ;;
  match d with Some d => name <- lc_string c (fld e 8 4 d) ;; Ok (acc ++ [name]) | None => Ok acc end.
Definition mach_libraries (f : mfile) : out (list bytes) := mf_cmds_fold f (libraries_step (mf_endian f)) [[]].
(** import.rs 69-78: the library that is returned *)
Record mlib := { lb_name : bytes; lb_ordinal : Z; lb_cmd : Z; lb_current : Z; lb_compat : Z; lb_use : option Z }.
Definition lib_of (e : endian) (c : lcmd) (ordinal : Z) : out mlib :=
  d <- lc_struct c 24 ;;
  name <- lc_string c (fld e 8 4 d) ;;
  use <- dylib_use_flags e c d ;;
  Ok {| lb_name := name; lb_ordinal := ordinal; lb_cmd := lc_cmd c; lb_current := fld e 16 4 d; lb_compat := fld e 20 4 d; lb_use := use |}.
(** 51-80 [MachOImportLibraryIterator::next], 39-49 [new]; the state is the command iterator and the ordinal.  [command.dylib().transpose()] is
    [None] only for other commands. *)
Fixpoint lib_loop (fuel : nat) (e : endian) (it : lcit) (ordinal : Z) : out (option mlib) * (lcit * Z) :=
  match fuel with
  | O => (Panic, (it, ordinal))
  | S fuel =>
    match lc_next e it with
    | (Ok (Some c), it) =>
      if is_dylib c then
        match padd 32 ordinal 1 with
        | Ok n => (l <- lib_of e c n ;; Ok (Some l), (it, n))
        | _ => (Panic, (it, ordinal))
        end
      else lib_loop fuel e it ordinal
    | (Ok None, it) => (Ok None, (it, ordinal))
    | (Err, it) => (Err, (it, ordinal))
    | (Panic, it) => (Panic, (it, ordinal))
    end
  end.
Definition lib_next (e : endian) (s : lcit * Z) : out (option mlib) * (lcit * Z) := lib_loop (S (Z.to_nat (li_ncmds (fst s)))) e (fst s) (snd s).
Definition import_libraries (f : mfile) : out (lcit * Z) :=
  it <- mach_load_commands (mf_64 f) (mf_endian f) (mf_header f) (mf_data f) 0 ;; Ok (it, 0).

(** * Imports *)
(** src/read/mod.rs [Import] and [ImportFlags] *)
Inductive mflags := MFSym (n_type n_desc : Z) | MFBind (dylib flags : Z).
Record mimport := { im_library : bytes; im_name : bytes; im_weak : bool; im_flags : mflags }.
(** An iterator over a slice that skips the elements for which [f] is [None] (import.rs 221-223 with [find], export.rs 178-240 with [continue]) *)
Fixpoint first_from {A B} (f : A -> option (out B)) (l : list A) : out (option B) * list A :=
  match l with
  | [] => (Ok None, [])
  | x :: l => match f x with Some r => (b <- r ;; Ok (Some b), l) | None => first_from f l end
  end.
(** import.rs 220-256 [MachOImportSymbols::next]; src/macho.rs 3509-3511 [library], 3629-3644 [is_reserved], [index] *)
Definition sym_import (t : msymtab) (libs : list bytes) (twolevel : bool) (n : nlist) : option (out mimport) :=
  if negb (my_is_undefined n) then None else Some (
    name <- nlist_name t n ;;
    library <- (if twolevel then
        let ordinal := wrap_u 8 (Z.shiftr (n_desc n) 8) in
        if (ordinal =? 0) || (253 <? ordinal) then Ok [] else of_opt (zget libs ordinal)
      else Ok []) ;;
    Ok {| im_library := library; im_name := name; im_weak := fl_has (n_desc n) 64; im_flags := MFSym (n_type n) (n_desc n) |}).
Definition sym_import_next (t : msymtab) (libs : list bytes) (twolevel : bool) : list nlist -> out (option mimport) * list nlist :=
  first_from (sym_import t libs twolevel).
(** 440-448 [library]; src/macho.rs 2980-2986 [index] *)
Definition bind_library (libs : list bytes) (dylib : Z) : out bytes := if dylib <=? 0 then Ok [] else of_opt (zget libs dylib).
(** 289-319 [MachOImportChainedFixups::next] *)
Fixpoint fix_import_loop (fuel : nat) (e : endian) (libs : list bytes) (it : ciit) : out (option mimport) * ciit :=
  match fuel with
  | O => (Panic, it)
  | S fuel =>
    match ci_next e it with
    | (Ok (Some i), it) =>
      if cm_dylib i =? 0 then fix_import_loop fuel e libs it else
      (library <- bind_library libs (cm_dylib i) ;;
       Ok (Some {| im_library := library; im_name := cm_name i; im_weak := cm_weak i; im_flags := MFBind (cm_dylib i) (if cm_weak i then 1 else 0) |}), it)
    | (Ok None, it) => (Ok None, it)
    | (Err, it) => (Err, it)
    | (Panic, it) => (Panic, it)
    end
  end.
Definition fix_import_next (e : endian) (libs : list bytes) (it : ciit) : out (option mimport) * ciit := fix_import_loop (S (Z.to_nat (ci_count it))) e libs it.
(** 322-334 [MachOImportDyldInfo]: the streams that are left (the current one first), their number, and the state *)
Record dimp := { dm_binds : list bytes; dm_index : Z; dm_lazy : bool; dm_dylib : option Z; dm_symbol : option (Z * bytes); dm_unbound : bool }.
Definition dm_with (s : dimp) (dylib : option Z) (symbol : option (Z * bytes)) (unbound : bool) : dimp :=
  {| dm_binds := dm_binds s; dm_index := dm_index s; dm_lazy := dm_lazy s; dm_dylib := dylib; dm_symbol := symbol; dm_unbound := unbound |}.
(** 427-437 [next_index] *)
Definition dm_next_index (s : dimp) : dimp :=
  let i := dm_index s + 1 in
  {| dm_binds := tl (dm_binds s); dm_index := i; dm_lazy := i =? 2; dm_dylib := if i =? 1 then Some (-3) else None; dm_symbol := None; dm_unbound := dm_unbound s |}.
(** one of the bind operations, 398-417; [None] continues with the next operation *)
Definition dm_bind (libs : list bytes) (s : dimp) : option (out mimport) * dimp :=
  if dm_unbound s then
    let s := dm_with s (dm_dylib s) (dm_symbol s) false in
    match dm_symbol s, dm_dylib s with
    | Some (flags, name), Some dylib =>
      if dylib =? 0 then (None, s) else
      (Some (library <- bind_library libs dylib ;;
             Ok {| im_library := library; im_name := name; im_weak := fl_has flags 1; im_flags := MFBind dylib flags |}), s)
    | _, _ => (Some Err, s)
    end
  else (None, s).
(** 375-422: one operation *)
Definition dm_op (libs : list bytes) (s : dimp) (op : bop) : option (out mimport) * dimp :=
  match op with
  | BDone => if dm_lazy s then (None, dm_with s None None (dm_unbound s)) else (None, dm_next_index s)
  | BSetOrdinal n => if n <? 2 ^ 31 then (None, dm_with s (Some n) (dm_symbol s) (dm_unbound s)) else (Some Err, s)
  | BSetSpecial n => (None, dm_with s (Some n) (dm_symbol s) (dm_unbound s))
  | BSetSymbol flags name => (None, dm_with s (dm_dylib s) (Some (flags, name)) true)
  | BSkipping count _ => if count =? 0 then (None, s) else dm_bind libs s
  | BBind | BBindAdd _ | BBindScaled _ => dm_bind libs s
  | BSetType _ | BSetAddend _ | BSetSegment _ _ | BAddAddr _ => (None, s)
  end.
Definition dm_set_data (s : dimp) (d : bytes) : dimp :=
  {| dm_binds := d :: tl (dm_binds s); dm_index := dm_index s; dm_lazy := dm_lazy s; dm_dylib := dm_dylib s; dm_symbol := dm_symbol s; dm_unbound := dm_unbound s |}.
(** 364-425 [next] *)
Fixpoint dm_loop (fuel : nat) (libs : list bytes) (s : dimp) : out (option mimport) * dimp :=
  match fuel with
  | O => (Panic, s)
  | S fuel =>
    match dm_binds s with
    | [] => (Ok None, s)
    | data :: _ =>
      match bop_next data with
      | (Ok (Some (_, op)), d) =>
        match dm_op libs (dm_set_data s d) op with
        | (Some r, s) => (i <- r ;; Ok (Some i), s)
        | (None, s) => dm_loop fuel libs s
        end
      | (Ok None, d) => dm_loop fuel libs (dm_next_index s)
      | (Err, d) => (Err, dm_set_data s d)
      | (Panic, d) => (Panic, dm_set_data s d)
      end
    end
  end.
Definition dm_size (l : list bytes) : nat := list_sum (map (fun d => S (length d)) l).
Definition dm_next (libs : list bytes) (s : dimp) : out (option mimport) * dimp := dm_loop (S (dm_size (dm_binds s))) libs s.
(** 336-362 [new] *)
Definition dm_new (e : endian) (F cmd : bytes) : out dimp :=
  bind <- di_data e cmd 1 F ;; weak <- di_data e cmd 2 F ;; lazy <- di_data e cmd 3 F ;;
  Ok {| dm_binds := [bind; weak; lazy]; dm_index := 0; dm_lazy := false; dm_dylib := None; dm_symbol := None; dm_unbound := false |}.
(** 120-124, 147-171 [MachOImportIterator::new]: the last command of each kind; [twolevel] is flag 0x80 of the header *)
Inductive mimports := ISymbols (libs : list bytes) (twolevel : bool) (l : list nlist) | IFixups (libs : list bytes) (it : ciit) | IDyld (libs : list bytes) (s : dimp).
Definition imports_step (acc : option bytes * option bytes) (c : lcmd) : out (option bytes * option bytes) :=
  x <- lc_chained_fixups c ;;
  match x with
  | Some _ => Ok (x, snd acc)
  | None => y <- lc_dyld_info c ;; Ok (match y with Some _ => (fst acc, y) | None => acc end)
  end.
Definition mach_imports (f : mfile) : out mimports :=
  let e := mf_endian f in
  ' (fixups, info) <- mf_cmds_fold f imports_step (None, None) ;;
  match fixups, info with
  | Some cmd, _ =>
    ' (data, h) <- chained_fixups e cmd (mf_data f) ;; it <- cfix_imports e data h ;; libs <- mach_libraries f ;; Ok (IFixups libs it)
  | None, Some cmd => s <- dm_new e (mf_data f) cmd ;; libs <- mach_libraries f ;; Ok (IDyld libs s)
  | None, None =>
    let twolevel := fl_has (mh_flags e (mf_header f)) 128 in
    libs <- (if twolevel then mach_libraries f else Ok []) ;; Ok (ISymbols libs twolevel (mt_symbols (mf_symbols f)))
  end.
(** 173-179 [next] *)
Definition mimports_next (f : mfile) (s : mimports) : out (option mimport) * mimports :=
  match s with
  | ISymbols libs tw l => let '(r, l) := sym_import_next (mf_symbols f) libs tw l in (r, ISymbols libs tw l)
  | IFixups libs it => let '(r, it) := fix_import_next (mf_endian f) libs it in (r, IFixups libs it)
  | IDyld libs d => let '(r, d) := dm_next libs d in (r, IDyld libs d)
  end.

(** * Exports *)
(** src/read/mod.rs [Export], [ExportTarget], [ExportFlags] *)
Inductive mtarget := TAAddress (a : Z) | TAAbsolute (v : Z) | TATlv (a : Z) | TAResolver (resolver : Z) (stub : option Z) | TAReexport (library name : bytes).
Record mexport := { xp_name : bytes; xp_target : mtarget; xp_weak : bool; xp_flags : option (Z * Z) }.
(** export.rs 178-240: a symbol *)
Definition sym_target (f : mfile) (n : nlist) : option (out mtarget) :=
  let typ := n_typ n in
  if typ =? 2 then Some (Ok (TAAbsolute (n_value n)))
  else if typ =? 10 then Some (if n_value n <? 2 ^ 32 then name <- strings_get (mt_strings (mf_symbols f)) (n_value n) ;; Ok (TAReexport [] name) else Err)
  else if typ =? 14 then Some (
    if fl_has (n_desc n) 256 then Ok (TAResolver (n_value n) None)
    else s <- mach_section f (n_sect n) ;; Ok (if ms_type (xi_sec s) =? 19 then TATlv (n_value n) else TAAddress (n_value n)))
  else None.
Definition sym_export (f : mfile) (n : nlist) : option (out mexport) :=
  if is_stab n || negb (fl_has (n_type n) 1) || fl_has (n_type n) 17 then None else
  match nlist_name (mf_symbols f) n with
  | Ok name => match sym_target f n with
               | Some r => Some (t <- r ;; Ok {| xp_name := name; xp_target := t; xp_weak := fl_has (n_desc n) 128; xp_flags := Some (n_type n, n_desc n) |})
               | None => None
               end
  | Err => Some Err
  | Panic => Some Panic
  end.
Definition sym_export_next (f : mfile) : list nlist -> out (option mexport) * list nlist := first_from (sym_export f).
(** 111-176: a symbol of the exports trie *)
Definition trie_target (f : mfile) (base : Z) (x : tsym) : out mtarget :=
  let kind := Z.land (ts_flags x) 3 in
  match ts_data x with
  | TRegular a =>
    if kind =? 2 then Ok (TAAbsolute a) else if kind =? 1 then Ok (TATlv (wrap_u 64 (base + a))) else if kind =? 0 then Ok (TAAddress (wrap_u 64 (base + a))) else Err
  | TStub stub resolver => if negb (kind =? 0) then Err else Ok (TAResolver (wrap_u 64 (base + resolver)) (Some (wrap_u 64 (base + stub))))
  | TReexport ordinal name =>
    libs <- mach_libraries f ;;
    if ordinal =? 0 then Err else library <- of_opt (zget libs ordinal) ;; Ok (TAReexport library name)
  end.
Definition trie_export (f : mfile) (base : Z) (x : tsym) : out mexport :=
  t <- trie_target f base x ;; Ok {| xp_name := ts_name x; xp_target := t; xp_weak := fl_has (ts_flags x) 4; xp_flags := None |}.
Definition trie_export_next (f : mfile) (D : bytes) (base : Z) (st : nodeit) : out (option mexport) * nodeit :=
  match exp_next D st with
  | (Ok (Some x), st) => (r <- trie_export f base x ;; Ok (Some r), st)
  | (Ok None, st) => (Ok None, st)
  | (Err, st) => (Err, st)
  | (Panic, st) => (Panic, st)
  end.
(** 62-109 [new]; the libraries are read when they are needed, which does not change what they are *)
Inductive mexports := XSymbols (l : list nlist) | XTrie (base : Z) (D : bytes).
Definition exports_step (acc : option bytes * option bytes) (c : lcmd) : out (option bytes * option bytes) :=
  x <- lc_exports_trie c ;;
  match x with
  | Some _ => Ok (x, snd acc)
  | None => y <- lc_dyld_info c ;; Ok (match y with Some _ => (fst acc, y) | None => acc end)
  end.
Definition image_base (f : mfile) : Z := match find (fun g => bytes_eqb (seg_name g) TEXT) (mf_segments f) with Some g => g_vmaddr g | None => 0 end.
Definition mach_exports (f : mfile) : out mexports :=
  let e := mf_endian f in
  ' (trie, info) <- mf_cmds_fold f exports_step (None, None) ;;
  match trie, info with
  | Some cmd, _ =>
    if negb (fld e 0 4 cmd =? 0x80000033) then Err else
    D <- rr_read_bytes_at (mf_data f) (fld e 8 4 cmd) (fld e 12 4 cmd) ;; Ok (XTrie (image_base f) D)
  | None, Some cmd => D <- di_data e cmd 4 (mf_data f) ;; Ok (XTrie (image_base f) D)
  | None, None => Ok (XSymbols (mt_symbols (mf_symbols f)))
  end.
