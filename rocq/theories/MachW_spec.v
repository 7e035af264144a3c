(** Specification vocabulary for Mach-O object files that were written: what a program that reads the file should see. *)
From Coq Require Import Sorted.
From Verif Require Export MachW_model Mach_spec Kind_spec Str_spec.

(** * Symbols that are written, and their order: first the local ones in the order in which they were added, then the other defined ones, then the undefined and
    common ones; the last two by name, and those with the same name in the order in which they were added. *)
Definition emitted (a : arch) (y : osym) : Prop :=
  sy_kind y <> YFile /\ (sy_kind y = YSection -> a = AAarch64 \/ a = AAarch64_Ilp32).
Definition undefined_sym (y : osym) : Prop := sy_section y = YUndefined \/ sy_section y = YCommon.
Definition local_sym (y : osym) : Prop := ~ undefined_sym y /\ sy_scope y = ScCompilation.
Definition external_sym (y : osym) : Prop := ~ undefined_sym y /\ sy_scope y <> ScCompilation.
(** order of byte strings *)
Definition name_lt (a b : bytes) : Prop :=
  (exists x r, b = a ++ x :: r) \/ (exists p x y r s, a = p ++ x :: r /\ b = p ++ y :: s /\ x < y).
Definition by_name (o : obj) (i j : Z) : Prop :=
  exists y z, zget (o_symbols o) i = Some y /\ zget (o_symbols o) j = Some z /\ (name_lt (sy_name y) (sy_name z) \/ sy_name y = sy_name z /\ i < j).
Definition part_of (o : obj) (P : osym -> Prop) (l : list Z) : Prop :=
  forall i, In i l <-> exists y, zget (o_symbols o) i = Some y /\ emitted (o_arch o) y /\ P y.
Definition symbol_order (o : obj) (locals externals undefineds : list Z) : Prop :=
  part_of o local_sym locals /\ StronglySorted Z.lt locals /\ part_of o external_sym externals /\ StronglySorted (by_name o) externals /\
  part_of o undefined_sym undefineds /\ StronglySorted (by_name o) undefineds.

(** * What the caller must respect *)
Definition pow2 (n : Z) : Prop := exists k, 0 <= k < 64 /\ n = 2 ^ k.
Definition msec_in (s : osec) : Prop :=
  str_ok (se_name s) /\ str_ok (se_segment s) /\ bytes_ok (se_data s) /\ 0 <= se_size s < 2 ^ 64 /\ pow2 (se_align s) /\
  (is_bss (se_kind s) = false -> se_size s = zlen (se_data s)) /\
  (forall f r, se_flags s = SFMachO f r -> u32_ok f /\ u32_ok r).
Definition msym_in (o : obj) (y : osym) : Prop :=
  str_ok (sy_name y) /\ 0 <= sy_value y < 2 ^ 64 /\ 0 <= sy_size y < 2 ^ 64 /\ (forall id, sy_section y = YSec id -> 0 <= id < zlen (o_sections o)) /\
  (forall t d, sy_flags y = Some (YFMachO t d) -> 0 <= t < 256 /\ u16_ok d).
Definition mach_ok (o : obj) (p : mopts) : Prop :=
  Forall msec_in (o_sections o) /\ Forall (msym_in o) (o_symbols o) /\ zlen (o_symbols o) <= 2 ^ 32 /\ zlen (o_sections o) < 2 ^ 32 /\
  (forall c, mo_cpusub p = Some c -> u32_ok c) /\ (forall c, mo_flags p = Some c -> u32_ok c) /\
  (forall a b c, mo_build p = Some (a, b, c) -> u32_ok a /\ u32_ok b /\ u32_ok c).
(** a relocation that can be represented: 24-bit numbers; the top bit of the offset marks other entries, except for x86-64 *)
Definition mrel_in (c : Z) (r : orel) : Prop :=
  exists t pcrel len, ol_flags r = RFmacho t pcrel len /\ 0 <= t < 16 /\ ~ is_pair c t /\ 0 <= len < 4 /\
  0 <= ol_offset r < (if c =? 16777223 then 2 ^ 32 else 2 ^ 31) /\ - 2 ^ 23 <= ol_addend r < 2 ^ 23.

(** * What is read *)
(** CPU type and subtype for an architecture; [None]: not supported *)
Definition cpu_type (a : arch) : option Z :=
  match a with
  | AArm => Some 12 | AAarch64 => Some 0x100000c | AAarch64_Ilp32 => Some 0x200000c | AI386 => Some 7 | AX86_64 => Some 0x1000007
  | APowerPc => Some 18 | APowerPc64 => Some 0x1000012 | _ => None
  end.
Definition cpu_subtype (a : arch) (sub : option subarch) : Z :=
  match a, sub with AAarch64, Some _ => 2 | AAarch64_Ilp32, _ => 1 | (AI386 | AX86_64), _ => 3 | _, _ => 0 end.
Definition reads_header (o : obj) (p : mopts) (f : mfile) : Prop :=
  let e := mf_endian f in let h := mf_header f in
  e = o_endian o /\ cpu_type (o_arch o) = Some (mh_cputype e h) /\ macho_architecture (mh_cputype e h) = o_arch o /\
  mh_cpusubtype e h = match mo_cpusub p with Some c => c | None => cpu_subtype (o_arch o) (mo_sub p) end /\
  mh_filetype e h = 1 /\
  mh_flags e h = Z.lor (match mo_flags p with Some c => c | None => 0 end) (if o_subsections o then 0x2000 else 0).
(** the section at position [i] (from 0) *)
Definition flags_of (s : osec) (fl res : Z) : Prop :=
  match se_flags s with
  | SFMachO f r => fl = f /\ res = r
  | _ => res = 0 /\
    match se_kind s with
    | SKText => fl = 0x80000400
    | SKReadOnlyString | SKOtherString => fl = 2
    | SKUninitializedData => fl = 1
    | SKTls => fl = 0x11
    | SKUninitializedTls => fl = 0x12
    | SKTlsVariables => fl = 0x13
    | SKDebug | SKDebugString => fl = 0x2000000
    | _ => fl = 0
    end
  end.
Definition reads_section (F : bytes) (x : msint) (s : osec) : Prop :=
  ms_name (xi_sec x) = se_name s /\ ms_segment (xi_sec x) = se_segment s /\ x_size (xi_sec x) = se_size s /\ ms_align (xi_sec x) = se_align s /\
  (se_align s | x_addr (xi_sec x)) /\ flags_of s (x_flags (xi_sec x)) (x_reserved2 (xi_sec x)) /\
  (section_has_data (xi_sec x) = false -> ms_data F (xi_sec x) (xi_offset x) = Ok []) /\
  (section_has_data (xi_sec x) = true -> is_bss (se_kind s) = false -> ms_data F (xi_sec x) (xi_offset x) = Ok (se_data s)).
(** no two sections share addresses, and all are in the segment *)
Definition disjoint_sections (size : Z) (l : list msec) : Prop :=
  (forall x, In x l -> 0 <= x_addr x /\ x_addr x + x_size x <= size) /\
  forall i j x y, zget l i = Some x -> zget l j = Some y -> i <> j -> x_addr x + x_size x <= x_addr y \/ x_addr y + x_size y <= x_addr x.
(** the symbol table entry of [y] *)
Definition sym_addr (f : mfile) (y : osym) (v : Z) : Prop :=
  match sy_section y with
  | YCommon => v = sy_size y
  | YSec id => exists x, zget (mf_sections f) id = Some x /\ v = x_addr (xi_sec x) + sy_value y
  | _ => v = sy_value y
  end.
Definition reads_symbol (is64 : bool) (f : mfile) (n : nlist) (y : osym) : Prop :=
  my_name f n = Ok (sy_name y) /\ (exists v, sym_addr f y v /\ n_value n = v mod (if is64 then 2 ^ 64 else 2 ^ 32)) /\
  n_sect n = match sy_section y with YSec id => id + 1 | _ => 0 end /\
  (forall t d, sy_flags y = Some (YFMachO t d) -> n_type n = t /\ n_desc n = d).
(** a relocation: the number of a symbol is its position in [order]; a section symbol is replaced by the number of its section, from 1 *)
Definition symbol_number (order : list Z) (i k : Z) : Prop := zget order k = Some i \/ (~ In i order /\ k = 0).
Definition reads_reloc (c : Z) (o : obj) (order : list Z) (r : orel) (x : rrel) : Prop :=
  exists t pcrel len target sub,
    ol_flags r = RFmacho t pcrel len /\
    (exists y, zget (o_symbols o) (ol_symbol r) = Some y /\
      if symkind_beq (sy_kind y) YSection then snd target = false /\ exists id, sy_section y = YSec id /\ fst target = id + 1
      else snd target = true /\ symbol_number order (ol_symbol r) (fst target)) /\
    match ol_sub r with Some i => exists k, sub = Some k /\ symbol_number order i k | None => sub = None end /\
    reads_as c {| mr_offset := ol_offset r; mr_type := t; mr_pcrel := pcrel; mr_length := len; mr_target := target; mr_sub := sub; mr_addend := ol_addend r |} x.
Definition reads_relocs (c : Z) (o : obj) (order : list Z) (F : bytes) (x : msint) (s : osec) : Prop :=
  exists ws rs xs, ms_relocs (o_endian o) F (xi_sec x) = Ok ws /\ (rs = se_relocs s \/ rs = rev (se_relocs s)) /\ Forall2 (reads_reloc c o order) rs xs /\
    forall fuel, (length rs <= fuel)%nat -> macho_relocs fuel (o_endian o) c ws = xs.
(** the first part of the dynamic symbol table command: ranges of symbols *)
Definition dysymtab_says (e : endian) (c : lcmd) (nlocal nextern nundef : Z) : Prop :=
  lc_cmd c = 11 /\ fld e 8 4 (lc_data c) = 0 /\ fld e 12 4 (lc_data c) = nlocal /\ fld e 16 4 (lc_data c) = nlocal /\ fld e 20 4 (lc_data c) = nextern /\
  fld e 24 4 (lc_data c) = nlocal + nextern /\ fld e 28 4 (lc_data c) = nundef.
(** the build version command *)
Definition build_says (e : endian) (c : lcmd) (platform minos sdk : Z) : Prop :=
  lc_cmd c = 0x32 /\ fld e 8 4 (lc_data c) = platform /\ fld e 12 4 (lc_data c) = minos /\ fld e 16 4 (lc_data c) = sdk /\ fld e 20 4 (lc_data c) = 0.

(** * What the read API reports for a symbol that was written with default flags *)
Definition reports_symbol (n : nlist) (y : osym) : Prop :=
  is_stab n = false /\ my_is_weak n = sy_weak y /\
  match sy_section y with
  | YNone => False
  | YUndefined | YCommon => my_section n = (if n_value n =? 0 then RUndefined else RCommon)
  | YAbsolute => my_section n = RAbsolute /\ my_address n = n_value n
  | YSec id => my_section n = RSection (id + 1) /\ my_address n = n_value n
  end /\
  (~ undefined_sym y -> my_scope n = match sy_scope y with ScUnknown => ScCompilation | s => s end) /\
  (sy_section y = YCommon -> my_size n = n_value n).
