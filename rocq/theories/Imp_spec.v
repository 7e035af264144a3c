(** Specification of the imports, exports and libraries of Mach-O files. *)
From Verif Require Export Mach_spec Fix_spec Ar_spec Dyld_spec Imp_model.

(** * Dynamic libraries *)
(** The commands that name a library: load, weak load, reexport, lazy load and load upward *)
Definition names_library (c : lcmd) : Prop := In (lc_cmd c) [0xc; 0x80000018; 0x8000001f; 0x20; 0x80000023].
(** The data of such a command: its number and size, the offset of the name in the command, a time stamp, the current and compatibility
    version, and the rest, with the null terminated name at its offset *)
Definition library_command (e : endian) (c : lcmd) (off timestamp current compat : Z) (tl name : bytes) : Prop :=
  u32_ok off /\ u32_ok timestamp /\ u32_ok current /\ u32_ok compat /\
  lc_data c = write_u e 4 (lc_cmd c) ++ write_u e 4 (zlen (lc_data c)) ++ write_u e 4 off ++ write_u e 4 timestamp ++ write_u e 4 current ++ write_u e 4 compat ++ tl /\
  string_at (lc_data c) off name.
(** The names in the order of the commands *)
Inductive library_names (e : endian) : list lcmd -> list bytes -> Prop :=
| ln_nil : library_names e [] []
| ln_take c off ts cur compat tl name l names : names_library c -> library_command e c off ts cur compat tl name -> library_names e l names ->
    library_names e (c :: l) (name :: names)
| ln_skip c l names : ~ names_library c -> library_names e l names -> library_names e (c :: l) names.
(** All the commands of the file that its header announces could be read *)
Definition complete (is64 : bool) (F : bytes) (h : mhdr) (l : list lcmd) : Prop := zlen l = mh_n h /\ (mh_sz h = 0 \/ table_size is64 + mh_sz h <= zlen F).
(** A library with its ordinal; a name directly behind four more bytes, and a special time stamp, mark the bytes as flags *)
Definition library_of (e : endian) (c : lcmd) (ordinal : Z) (x : mlib) : Prop :=
  exists off ts tl, library_command e c off ts (lb_current x) (lb_compat x) tl (lb_name x) /\ lb_ordinal x = ordinal /\ lb_cmd x = lc_cmd c /\
  if (off =? 28) && (ts =? 0x1a741800) then exists flags tl', u32_ok flags /\ tl = write_u e 4 flags ++ tl' /\ lb_use x = Some flags else lb_use x = None.
(** the results for the commands behind [k] libraries; [None] is an error *)
Inductive libraries_of (e : endian) : Z -> list lcmd -> list (option mlib) -> Prop :=
| lo_nil k : libraries_of e k [] []
| lo_take k c l x L : names_library c -> library_of e c (k + 1) x -> libraries_of e (k + 1) l L -> libraries_of e k (c :: l) (Some x :: L)
| lo_bad k c l L : names_library c -> (forall x, ~ library_of e c (k + 1) x) -> libraries_of e (k + 1) l L -> libraries_of e k (c :: l) (None :: L)
| lo_skip k c l L : ~ names_library c -> libraries_of e k l L -> libraries_of e k (c :: l) L.

(** * Results *)
(** One result for every element that is not skipped: what [R] says, or an error *)
Inductive picks {A B} (skip : A -> Prop) (R : A -> B -> Prop) : list A -> list (option B) -> Prop :=
| pk_nil : picks skip R [] []
| pk_skip x l L : skip x -> picks skip R l L -> picks skip R (x :: l) L
| pk_take x y l L : ~ skip x -> R x y -> picks skip R l L -> picks skip R (x :: l) (Some y :: L)
| pk_bad x l L : ~ skip x -> (forall y, ~ R x y) -> picks skip R l L -> picks skip R (x :: l) (None :: L).
(** [results], up to a state *)
Inductive steps {S A} (next : S -> out (option A) * S) : S -> list (option A) -> S -> Prop :=
| st_end st : steps next st [] st
| st_ok st st1 x l st' : next st = (Ok (Some x), st1) -> steps next st1 l st' -> steps next st (Some x :: l) st'
| st_err st st1 l st' : next st = (Err, st1) -> steps next st1 l st' -> steps next st (None :: l) st'.

(** * Symbols *)
(** the type bits of a symbol: 0 undefined, 1 absolute, 5 indirect, 7 in a section *)
Definition type_bits (n : nlist) : Z := (n_type n / 2) mod 8.
Definition undefined (n : nlist) : Prop := ~ stab n /\ type_bits n = 0 /\ n_value n = 0.
(** the library of an import: in a file with two levels of names, the upper byte of [n_desc] is the ordinal, or 0, 254 or 255 *)
Definition symbol_import (t : msymtab) (libs : list bytes) (twolevel : bool) (n : nlist) (i : mimport) : Prop :=
  sym_name t n (im_name i) /\ im_weak i = Z.testbit (n_desc n) 6 /\ im_flags i = MFSym (n_type n) (n_desc n) /\
  let ordinal := n_desc n / 256 in
  if twolevel && (1 <=? ordinal) && (ordinal <=? 253) then zget libs ordinal = Some (im_library i) else im_library i = [].
(** exports: external, not private, with a value *)
Definition external (n : nlist) : Prop := ~ stab n /\ Z.testbit (n_type n) 0 = true /\ Z.testbit (n_type n) 4 = false.
Definition not_exported (t : msymtab) (n : nlist) : Prop := ~ external n \/ (~ In (type_bits n) [1; 5; 7] /\ exists name, sym_name t n name).
Definition symbol_export (f : mfile) (n : nlist) (x : mexport) : Prop :=
  sym_name (mf_symbols f) n (xp_name x) /\ xp_weak x = Z.testbit (n_desc n) 7 /\ xp_flags x = Some (n_type n, n_desc n) /\
  ((type_bits n = 1 /\ xp_target x = TAAbsolute (n_value n)) \/
   (type_bits n = 5 /\ n_value n < 2 ^ 32 /\ exists name, strings_get (mt_strings (mf_symbols f)) (n_value n) = Ok name /\ xp_target x = TAReexport [] name) \/
   (type_bits n = 7 /\ Z.testbit (n_desc n) 8 = true /\ xp_target x = TAResolver (n_value n) None) \/
   (type_bits n = 7 /\ Z.testbit (n_desc n) 8 = false /\ exists s, 1 <= n_sect n /\ zget (mf_sections f) (n_sect n - 1) = Some s /\
      xp_target x = if ms_type (xi_sec s) =? 19 then TATlv (n_value n) else TAAddress (n_value n))).

(** * Chained fixups *)
Definition library_at (libs : list bytes) (dylib : Z) (name : bytes) : Prop := if dylib <=? 0 then name = [] else zget libs dylib = Some name.
Definition fixup_import (libs : list bytes) (c : cimport) (i : mimport) : Prop :=
  library_at libs (cm_dylib c) (im_library i) /\ im_name i = cm_name c /\ im_weak i = cm_weak c /\ im_flags i = MFBind (cm_dylib c) (if cm_weak c then 1 else 0).

(** * Bind operations *)
(** the operations of a stream: all of them, or those before the first [BDone] if that ends it; [bad]: followed by an error *)
Definition stream (lazy : bool) (d : bytes) (l : list bop) (bad : bool) : Prop :=
  exists ops err d', runs bop_next d ops err d' /\
  if lazy then l = map snd ops /\ bad = err else
  ~ In BDone l /\ ((exists post, map snd ops = l ++ BDone :: post /\ bad = false) \/ (map snd ops = l /\ bad = err)).
(** what the last of the operations that set a thing set it to *)
Definition last_set {A} (sets : bop -> option A) (initial : A) (ops : list bop) : A :=
  fold_left (fun s o => match sets o with Some s' => s' | None => s end) ops initial.
Definition is_bind (o : bop) : bool :=
  match o with BBind | BBindAdd _ | BBindScaled _ => true | BSkipping count _ => negb (count =? 0) | _ => false end.
Definition sets_dylib (lazy : bool) (o : bop) : option (option Z) :=
  match o with BSetOrdinal n => if n <? 2 ^ 31 then Some (Some n) else None | BSetSpecial n => Some (Some n) | BDone => if lazy then Some None else None | _ => None end.
Definition sets_symbol (lazy : bool) (o : bop) : option (option (Z * bytes)) :=
  match o with BSetSymbol flags name => Some (Some (flags, name)) | BDone => if lazy then Some None else None | _ => None end.
(** a symbol was set, but not bound yet *)
Definition sets_pending (o : bop) : option bool := match o with BSetSymbol _ _ => Some true | _ => if is_bind o then Some false else None end.
(** what an operation after [pre] reports; [None] is an error *)
Definition report (libs : list bytes) (lazy : bool) (dylib : option Z) (pending : bool) (pre : list bop) (o : bop) : list (option mimport) :=
  match o with
  | BSetOrdinal n => if n <? 2 ^ 31 then [] else [None]
  | _ =>
    if is_bind o && last_set sets_pending pending pre then
      match last_set (sets_symbol lazy) None pre, last_set (sets_dylib lazy) dylib pre with
      | Some (flags, name), Some d =>
        let imp library := Some {| im_library := library; im_name := name; im_weak := Z.testbit flags 0; im_flags := MFBind d flags |} in
        if d =? 0 then [] else if d <? 0 then [imp []] else match zget libs d with Some library => [imp library] | None => [None] end
      | _, _ => [None]
      end
    else []
  end.
Fixpoint reports (libs : list bytes) (lazy : bool) (dylib : option Z) (pending : bool) (pre ops : list bop) : list (option mimport) :=
  match ops with [] => [] | o :: ops => report libs lazy dylib pending pre o ++ reports libs lazy dylib pending (pre ++ [o]) ops end.
Definition bad_end {A} (bad : bool) : list (option A) := if bad then [None] else [].
(** The streams one after the other.  Weak binds have the special ordinal -3; a symbol that is pending at the end of a stream stays so. *)
Definition dyld_imports (libs : list bytes) (bind weak lazy : bytes) (L : list (option mimport)) : Prop :=
  exists l1 b1 l2 b2 l3 b3, stream false bind l1 b1 /\ stream false weak l2 b2 /\ stream true lazy l3 b3 /\
  let p1 := last_set sets_pending false l1 in
  let p2 := last_set sets_pending p1 l2 in
  L = reports libs false None false [] l1 ++ bad_end b1 ++ reports libs false (Some (-3)) p1 [] l2 ++ bad_end b2 ++ reports libs true None p2 [] l3 ++ bad_end b3.

(** * Exports trie *)
(** the target of a symbol of the trie; the lower two bits of the flags are 0 regular, 1 thread local, 2 absolute *)
Definition trie_export_of (f : mfile) (base : Z) (s : tsym) (x : mexport) : Prop :=
  xp_name x = ts_name s /\ xp_weak x = Z.testbit (ts_flags s) 2 /\ xp_flags x = None /\
  let kind := ts_flags s mod 4 in
  match ts_data s with
  | TRegular a => (kind = 0 /\ xp_target x = TAAddress ((base + a) mod 2 ^ 64)) \/ (kind = 1 /\ xp_target x = TATlv ((base + a) mod 2 ^ 64)) \/ (kind = 2 /\ xp_target x = TAAbsolute a)
  | TStub stub resolver => kind = 0 /\ xp_target x = TAResolver ((base + resolver) mod 2 ^ 64) (Some ((base + stub) mod 2 ^ 64))
  | TReexport ordinal name => exists libs library, mach_libraries f = Ok libs /\ ordinal <> 0 /\ zget libs ordinal = Some library /\ xp_target x = TAReexport library name
  end.

(** * The source of the imports and exports *)
Definition last_with (P : lcmd -> Prop) (l : list lcmd) (c : lcmd) : Prop := exists a b, l = a ++ c :: b /\ P c /\ Forall (fun y => ~ P y) b.
Definition has_number (ns : list Z) (c : lcmd) : Prop := In (lc_cmd c) ns.
(** commands with these numbers have at least this size *)
Definition sized (ns : list Z) (n : Z) (l : list lcmd) : Prop := Forall (fun c => has_number ns c -> n <= zlen (lc_data c)) l.
(** [F] was parsed as [f]; its header is [h], and its commands, as far as they can be read (C35, C53), are [l] *)
Definition parsed (is64 : bool) (F : bytes) (f : mfile) (h : mhdr) (l : list lcmd) : Prop :=
  file_ok F /\ mach_parse is64 F = Ok f /\ mhdr_ok h /\ (exists r, mf_header f = mach_hdr is64 (mf_endian f) h r) /\ file_commands is64 (mf_endian f) F h l.
