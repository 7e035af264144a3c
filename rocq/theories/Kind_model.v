(** Model of relocation kinds: the writers' translation of a generic relocation to a format's type, the readers' translation
    back, and the Mach-O relocation entry with its iterator.  Definitions only.  Match arms are in [Kind_tables]. *)
From Verif Require Export Enum_model Kind_tables.

(** src/common.rs [BinaryFormat], those that write::Object supports *)
Inductive format := FCoff | FElf | FMachO | FXcoff.
Scheme Equality for format.

(** an [i64] addition with overflow checks *)
Definition iadd (a b : Z) : out Z := if (- 2 ^ 63 <=? a + b) && (a + b <? 2 ^ 63) then Ok (a + b) else Panic.

(** A match arm's pattern: [None] is a wildcard *)
Definition pat {A} (eqb : A -> A -> bool) (p : option A) (x : A) : bool := match p with Some y => eqb y x | None => true end.

(* ---- ELF ---- *)
(** src/write/elf/object.rs 264-544 [elf_translate_relocation], of generic flags: the type, or an error *)
Definition elf_translate (a : arch) (e : endian) (k : rkind) (enc : renc) (size : Z) : out Z :=
  match find (fun '(a', e', k', enc', size', _) =>
    arch_beq a' a && pat endian_eqb e' e && rkind_beq k' k && pat renc_beq enc' enc && (size' =? size)) elf_write_rows with
  | Some (_, t) => Ok t
  | None => Err
  end.
(** 721-762: [e_machine] when there is no sub-architecture *)
Definition elf_machine (a : arch) : out Z :=
  match find (fun '(a', _) => arch_beq a' a) elf_machine_rows with Some (_, m) => Ok m | None => Err end.
(** 605-610 [elf_is_64]; [address_size] of an unknown architecture is unwrapped *)
Definition elf_is_64 (a : arch) : out bool := match address_size a with Some n => Ok (n =? 8) | None => Panic end.
(** 773-779: the flags that [elf_write] adds to [e_flags] *)
Definition elf_e_flags (a : arch) (flags : Z) : Z :=
  match a with AMips64_N32 => Z.lor flags 32 | AIa64 => Z.lor flags 16 | _ => flags end.
(** 218-262 [elf_has_relocation_addend] *)
Definition elf_has_addend (a : arch) : out bool :=
  match find (fun '(a', _) => arch_beq a' a) elf_addend_rows with Some (_, b) => Ok b | None => Err end.
(** 554-603 [elf_relocation_size] *)
Definition elf_reloc_size (a : arch) (r_type : Z) : out Z :=
  match find (fun '(a', t, _) => arch_beq a' a && (t =? r_type)) elf_size_rows with Some (_, s) => Ok s | None => Err end.
(** src/read/elf/relocation.rs 276-540 [parse_relocation]: kind, encoding and size *)
Definition elf_parse (machine : Z) (is64 : bool) (e : endian) (r_type : Z) : rkind * renc * Z :=
  match find (fun '(m, c, e', t, _, _, _) =>
    (m =? machine) && pat Bool.eqb c is64 && pat endian_eqb e' e && (t =? r_type)) elf_read_rows with
  | Some (_, _, _, _, k, enc, size) => (k, enc, size)
  | None => (KUnknown, EUnknown, 0)
  end.
(** src/read/elf/file.rs 272-320 [architecture]: [EF_MIPS_ABI2] is 0x20 *)
Definition elf_architecture (machine : Z) (is64 : bool) (e_flags : Z) : arch :=
  match machine, is64 with
  | 183, true => AAarch64 | 183, false => AAarch64_Ilp32
  | 36902, true => AAlpha
  | 40, _ => AArm | 83, _ => AAvr | 247, _ => ABpf | 252, _ => ACsky
  | 175, false => AE2K32 | 175, true => AE2K64
  | 3, _ => AI386
  | 62, false => AX86_64_X32 | 62, true => AX86_64
  | 164, _ => AHexagon | 50, _ => AIa64
  | 258, false => ALoongArch32 | 258, true => ALoongArch64
  | 4, false => AM68k
  | 8, false => if Z.land e_flags 32 =? 32 then AMips64_N32 else AMips
  | 8, true => AMips64
  | 105, _ => AMsp430 | 15, _ => AHppa | 20, _ => APowerPc | 21, _ => APowerPc64
  | 243, false => ARiscv32 | 243, true => ARiscv64
  | 22, true => AS390x
  | 263, _ => ASbf
  | 133, false => ASharc | 2, false => ASparc | 18, false => ASparc32Plus | 43, true => ASparc64
  | 94, false => AXtensa | 42, false => ASuperH
  | _, _ => AUnknown
  end.

(* ---- COFF ---- *)
(** src/write/coff/object.rs 185-199: kinds that are written as relative; a [GotRelative] also gets a stub symbol *)
Definition coff_kind (k : rkind) : rkind := match k with KGotRelative | KPltRelative => KRelative | _ => k end.
Definition coff_stub (k : rkind) : bool := rkind_beq k KGotRelative.
(** 170-258 [coff_translate_relocation], of generic flags *)
Definition coff_translate (a : arch) (k : rkind) (enc : renc) (size addend : Z) : out Z :=
  match find (fun '(a', k', enc', size', addend', _) =>
    arch_beq a' a && rkind_beq k' (coff_kind k) && pat renc_beq enc' enc && (size' =? size) && pat Z.eqb addend' addend)
    coff_write_rows with
  | Some (_, t) => Ok t
  | None => Err
  end.
(** 259-302 [coff_adjust_addend]: the new addend; it is always implicit *)
Definition coff_adjust (a : arch) (typ addend : Z) : out Z :=
  match a with
  | AArm | AAarch64 | AI386 | AX86_64 | APowerPc | APowerPc64 =>
    iadd addend (match find (fun '(a', t, _) => arch_beq a' a && (t =? typ)) coff_adjust_rows with Some (_, o) => o | None => 0 end)
  | _ => Err
  end.
(** 303-359 [coff_relocation_size] *)
Definition coff_reloc_size (a : arch) (typ : Z) : out Z :=
  match find (fun '(a', t, _) => arch_beq a' a && (t =? typ)) coff_size_rows with Some (_, s) => Ok s | None => Err end.
(** 596-616: [machine] of the file header when there is no sub-architecture (POWERPC, POWERPCBE 0x1f0, 0x1f2) *)
Definition coff_machine (a : arch) (e : endian) : out Z :=
  match a, e with
  | AArm, _ => Ok 452 | AAarch64, _ => Ok 43620 | AI386, _ => Ok 332 | AX86_64, _ => Ok 34404
  | (APowerPc | APowerPc64), Little => Ok 496 | (APowerPc | APowerPc64), Big => Ok 498
  | _, _ => Err
  end.
(** src/read/coff/file.rs 159-170 [architecture] (ARM64EC 0xa641, POWERPCFP 0x1f1) *)
Definition coff_architecture (machine : Z) : arch :=
  match machine with
  | 452 => AArm | 43620 | 42561 => AAarch64 | 332 => AI386 | 34404 => AX86_64 | 496 | 497 | 498 => APowerPc | _ => AUnknown
  end.
(** src/read/coff/relocation.rs 36-110: kind, encoding, size and addend; the addend is implicit *)
Definition coff_parse (machine typ : Z) : rkind * renc * Z * Z :=
  match find (fun '(m, t, _, _, _, _) => (m =? machine) && (t =? typ)) coff_read_rows with
  | Some (_, _, k, enc, size, addend) => (k, enc, size, addend)
  | None => (KUnknown, EUnknown, 0, 0)
  end.

(* ---- XCOFF ---- *)
(** src/write/xcoff.rs 164-190 [xcoff_translate_relocation]: [r_rtype] and [r_rsize]; [size - 1] overflows on u8 for size 0 *)
Definition xcoff_translate (k : rkind) (size : Z) : out (Z * Z) :=
  rt <- match k with KAbsolute => Ok 0 | KRelative => Ok 2 | KGot => Ok 3 | _ => Err end ;;
  rs <- psub size 1 ;; Ok (rt, rs).
(** 192-205 [xcoff_adjust_addend]; it is always implicit *)
Definition xcoff_adjust (rtype addend : Z) : out Z := if rtype =? 2 then iadd addend 4 else Ok addend.
(** 207-214 [xcoff_relocation_size]: [r_rsize + 1] on u8 *)
Definition xcoff_reloc_size (rsize : Z) : out Z := padd 8 rsize 1.
(** src/read/xcoff/relocation.rs 42-58: kind, encoding, size and addend; the addend is implicit *)
Definition xcoff_parse (rtype rsize : Z) : rkind * renc * Z * Z :=
  let '(k, addend) := match rtype with
    | 0 | 12 | 13 | 8 | 24 | 32 => (KAbsolute, 0)
    | 2 | 10 | 26 => (KRelative, -4)
    | 3 | 49 | 48 => (KGot, 0)
    | _ => (KUnknown, 0)
    end in
  (k, EGeneric, Z.land rsize 63 + 1, addend).

(* ---- Mach-O ---- *)
(** src/write/macho/object.rs 325-337: [r_length] of a size *)
Definition macho_length (a : arch) (size : Z) : out Z :=
  let size := if arch_beq a AAarch64 && ((size =? 12) || (size =? 21) || (size =? 26)) then 32 else size in
  if size =? 8 then Ok 0 else if size =? 16 then Ok 1 else if size =? 32 then Ok 2 else if size =? 64 then Ok 3 else Err.
(** 338-380: [r_pcrel] and [r_type] *)
Definition macho_type (a : arch) (k : rkind) (enc : renc) : out (bool * Z) :=
  match a with
  | AI386 | AArm | APowerPc | APowerPc64 => match k with KAbsolute => Ok (false, 0) | _ => Err end
  | AX86_64 =>
    match k, enc with
    | KAbsolute, EGeneric => Ok (false, 0)
    | KRelative, (EGeneric | EX86RipRelative) => Ok (true, 1)
    | KRelative, EX86Branch => Ok (true, 2)
    | KPltRelative, (EGeneric | EX86Branch) => Ok (true, 2)
    | KGotRelative, EGeneric => Ok (true, 4)
    | KGotRelative, EX86RipRelativeMovq => Ok (true, 3)
    | _, _ => Err
    end
  | AAarch64 | AAarch64_Ilp32 =>
    match k, enc with
    | KAbsolute, EGeneric => Ok (false, 0)
    | KRelative, EGeneric => Ok (false, 0)
    | KRelative, EAArch64Call => Ok (true, 2)
    | KPltRelative, (EGeneric | EAArch64Call) => Ok (true, 2)
    | KGotRelative, EGeneric => Ok (true, 7)
    | _, _ => Err
    end
  | _ => Err
  end.
(** 355-362: whether the section's symbol becomes the subtractor and the offset is subtracted from the addend *)
Definition macho_subtracts (a : arch) (k : rkind) (enc : renc) : bool :=
  match a, k, enc with (AAarch64 | AAarch64_Ilp32), KRelative, EGeneric => true | _, _, _ => false end.
(** 304-384 [macho_translate_relocation], of generic flags: [r_type], [r_pcrel], [r_length], and the new addend
    ([reloc.offset as i64] wraps; the subtraction is checked) *)
Definition macho_translate (a : arch) (k : rkind) (enc : renc) (size offset addend : Z) : out (Z * bool * Z * Z) :=
  len <- macho_length a size ;; ' (pcrel, t) <- macho_type a k enc ;;
  addend' <- (if macho_subtracts a k enc then iadd addend (- wrap_s 64 offset) else Ok addend) ;;
  Ok (t, pcrel, len, addend').
(** 386-430 [macho_adjust_addend]: the new addend and whether it is implicit *)
Definition macho_adjust (a : arch) (r_type : Z) (pcrel : bool) (addend : Z) : out (Z * bool) :=
  addend' <- (if pcrel
    then iadd addend (match a with
      | AI386 => 4
      | AX86_64 => if r_type =? 6 then 5 else if r_type =? 7 then 6 else if r_type =? 8 then 8 else 4
      | _ => 0
      end)
    else Ok addend) ;;
  Ok (addend', match a with AAarch64 => negb ((r_type =? 2) || (r_type =? 3) || (r_type =? 4)) | _ => true end).
(** 432-438 [macho_relocation_size]: [8 << r_length] on u8; a shift by 8 or more panics *)
Definition macho_reloc_size (r_length : Z) : out Z := if r_length <? 8 then Ok (wrap_u 8 (Z.shiftl 8 r_length)) else Panic.
(** 612-634: [cputype] of the file header when there is no sub-architecture *)
Definition macho_cputype (a : arch) : out Z :=
  match a with
  | AArm => Ok 12 | AAarch64 => Ok 16777228 | AAarch64_Ilp32 => Ok 33554444 | AI386 => Ok 7 | AX86_64 => Ok 16777223
  | APowerPc => Ok 18 | APowerPc64 => Ok 16777234 | _ => Err
  end.
(** src/read/macho/file.rs 360-372 [architecture] *)
Definition macho_architecture (cputype : Z) : arch :=
  match cputype with
  | 12 => AArm | 16777228 => AAarch64 | 33554444 => AAarch64_Ilp32 | 7 => AI386 | 16777223 => AX86_64
  | 8 => AMips | 18 => APowerPc | 16777234 => APowerPc64 | _ => AUnknown
  end.

(** src/macho.rs 3926-3941 [RelocationInfo] *)
Record minfo := { mi_address : Z; mi_symbolnum : Z; mi_pcrel : bool; mi_length : Z; mi_extern : bool; mi_type : Z }.
(** 3943-3965 [RelocationInfo::relocation]: the two words *)
Definition minfo_pack (e : endian) (i : minfo) : Z * Z :=
  (mi_address i,
   match e with
   | Little =>
     Z.lor (Z.lor (Z.lor (Z.lor (Z.land (mi_symbolnum i) 16777215) (Z.shiftl (Z.b2z (mi_pcrel i)) 24))
       (Z.shiftl (Z.land (mi_length i) 3) 25)) (Z.shiftl (Z.b2z (mi_extern i)) 27)) (wrap_u 32 (Z.shiftl (mi_type i) 28))
   | Big =>
     Z.lor (Z.lor (Z.lor (Z.lor (Z.shiftr (mi_symbolnum i) 8) (Z.shiftl (Z.b2z (mi_pcrel i)) 7))
       (Z.shiftl (Z.land (mi_length i) 3) 5)) (Z.shiftl (Z.b2z (mi_extern i)) 4)) (Z.land (mi_type i) 15)
   end).
(** 3880-3903 [Relocation::info] *)
Definition minfo_unpack (e : endian) (w : Z * Z) : minfo :=
  let w1 := snd w in
  match e with
  | Little => {| mi_address := fst w; mi_symbolnum := Z.land w1 16777215; mi_pcrel := negb (Z.land (Z.shiftr w1 24) 1 =? 0);
      mi_length := Z.land (Z.shiftr w1 25) 3; mi_extern := negb (Z.land (Z.shiftr w1 27) 1 =? 0);
      mi_type := wrap_u 8 (Z.shiftr w1 28) |}
  | Big => {| mi_address := fst w; mi_symbolnum := Z.shiftr w1 8; mi_pcrel := negb (Z.land (Z.shiftr w1 7) 1 =? 0);
      mi_length := Z.land (Z.shiftr w1 5) 3; mi_extern := negb (Z.land (Z.shiftr w1 4) 1 =? 0);
      mi_type := Z.land w1 15 |}
  end.
(** 3869-3877 [r_scattered] *)
Definition r_scattered (cputype : Z) (w : Z * Z) : bool := if cputype =? 16777223 then false else negb (Z.land (fst w) 2147483648 =? 0).
(** 4038-4050 [ScatteredRelocationInfo]: address, type, length, pcrel, value *)
Record sinfo := { si_address : Z; si_type : Z; si_length : Z; si_pcrel : bool; si_value : Z }.
(** 4052-4067 [ScatteredRelocationInfo::relocation] *)
Definition sinfo_pack (i : sinfo) : Z * Z :=
  (Z.lor (Z.lor (Z.lor (Z.lor (Z.land (si_address i) 16777215) (Z.shiftl (Z.land (si_type i) 15) 24))
     (Z.shiftl (Z.land (si_length i) 3) 28)) (Z.shiftl (Z.b2z (si_pcrel i)) 30)) 2147483648, si_value i).
(** 3905-3917 [Relocation::scattered_info] *)
Definition sinfo_unpack (w : Z * Z) : sinfo :=
  let w0 := fst w in
  {| si_address := Z.land w0 16777215; si_type := Z.land (Z.shiftr w0 24) 15; si_length := Z.land (Z.shiftr w0 28) 3;
     si_pcrel := negb (Z.land (Z.shiftr w0 30) 1 =? 0); si_value := snd w |}.

(** src/read/macho/relocation.rs 63-109: kind, encoding and size of a plain entry; or a pair that modifies the next one *)
Inductive mparse := MKind (k : rkind) (enc : renc) (size : Z) | MAddend | MSubtractor.
Definition macho_parse (cputype : Z) (i : minfo) : mparse :=
  let size := wrap_u 8 (Z.shiftl 8 (mi_length i)) in
  let unknown := MKind KUnknown EUnknown size in
  match cputype, mi_type i, mi_pcrel i with
  | 12, 0, false => MKind KAbsolute EGeneric size
  | (16777228 | 33554444), 0, false => MKind KAbsolute EGeneric size
  | (16777228 | 33554444), 2, true => MKind KPltRelative EAArch64Call 26
  | (16777228 | 33554444), 7, true => MKind KGotRelative EGeneric size
  | (16777228 | 33554444), 10, _ => MAddend
  | (16777228 | 33554444), 1, _ => MSubtractor
  | 7, 0, false => MKind KAbsolute EGeneric size
  | 16777223, 0, false => MKind KAbsolute EGeneric size
  | 16777223, 1, true => MKind KRelative EX86RipRelative size
  | 16777223, 2, true => MKind KPltRelative EX86Branch size
  | 16777223, 4, true => MKind KGotRelative EGeneric size
  | 16777223, 3, true => MKind KGotRelative EX86RipRelativeMovq size
  | 16777223, 5, _ => MSubtractor
  | (18 | 16777234), 0, false => MKind KAbsolute EGeneric size
  | _, _, _ => unknown
  end.
(** src/read/mod.rs [RelocationTarget] *)
Inductive rtarget := TSymbol (i : Z) | TSection (i : Z) | TAbsolute.
(** src/read/mod.rs [Relocation], with the offset beside it *)
Record rrel := { rr_offset : Z; rr_kind : rkind; rr_enc : renc; rr_size : Z; rr_target : rtarget; rr_subtractor : option Z;
  rr_addend : Z; rr_implicit : bool; rr_flags : rflags }.
(** src/read/macho/relocation.rs 119-140: what a PC-relative entry subtracts from the addend *)
Definition macho_pcrel_bias (cputype : Z) (i : minfo) : Z :=
  if mi_pcrel i then
    match cputype with
    | 7 => Z.shiftl 1 (mi_length i)
    | 16777223 => Z.shiftl 1 (mi_length i) + (match mi_type i with 6 => 1 | 7 => 2 | 8 => 4 | _ => 0 end)
    | _ => 0
    end
  else 0.
(** src/read/macho/relocation.rs 36-150 [MachORelocationIterator::next]: the entry and the words left; [i64] shifts by 40
    sign-extend 24 bits; the subtraction of the bias cannot overflow *)
Fixpoint macho_next (e : endian) (cputype : Z) (paired : Z) (sub : option Z) (ws : list (Z * Z)) : option (rrel * list (Z * Z)) :=
  match ws with
  | [] => None
  | w :: tl =>
    if r_scattered cputype w then macho_next e cputype paired sub tl else
    let i := minfo_unpack e w in
    match macho_parse cputype i with
    | MAddend => macho_next e cputype (wrap_s 24 (mi_symbolnum i)) sub tl
    | MSubtractor => macho_next e cputype paired (Some (mi_symbolnum i)) tl
    | MKind k enc size =>
      Some ({| rr_offset := mi_address i; rr_kind := k; rr_enc := enc; rr_size := size;
        rr_target := if mi_extern i then TSymbol (mi_symbolnum i) else if mi_symbolnum i =? 0 then TAbsolute else TSection (mi_symbolnum i);
        rr_subtractor := sub; rr_addend := paired - macho_pcrel_bias cputype i; rr_implicit := paired =? 0;
        rr_flags := RFmacho (mi_type i) (mi_pcrel i) (mi_length i) |}, tl)
    end
  end.
(** the iterator run to its end *)
Fixpoint macho_relocs (fuel : nat) (e : endian) (cputype : Z) (ws : list (Z * Z)) : list rrel :=
  match fuel with
  | O => []
  | S f => match macho_next e cputype 0 None ws with None => [] | Some (r, tl) => r :: macho_relocs f e cputype tl end
  end.

(** src/write/macho/object.rs 770-845 [write_reloc]: the entries of one relocation whose flags are Mach-O flags; [target] is the
    symbol index ([true]) or the section ordinal ([false]), [sub] the subtractor's symbol index *)
Definition macho_entries (a : arch) (r_type : Z) (pcrel : bool) (len offset : Z) (target : Z * bool) (sub : option Z) (addend : Z)
  : out (list minfo) :=
  s <- match sub with
    | None => Ok []
    | Some n =>
      t <- match a with AAarch64 | AAarch64_Ilp32 => Ok 1 | AX86_64 => Ok 5 | _ => Err end ;;
      Ok [{| mi_address := wrap_u 32 offset; mi_symbolnum := n; mi_pcrel := false; mi_length := len; mi_extern := true; mi_type := t |}]
    end ;;
  d <- (if addend =? 0 then Ok [] else
    t <- match a with AAarch64 | AAarch64_Ilp32 => Ok 10 | _ => Err end ;;
    Ok [{| mi_address := wrap_u 32 offset; mi_symbolnum := wrap_u 32 addend; mi_pcrel := false; mi_length := len; mi_extern := false;
           mi_type := t |}]) ;;
  Ok (s ++ d ++ [{| mi_address := wrap_u 32 offset; mi_symbolnum := fst target; mi_pcrel := pcrel; mi_length := len;
    mi_extern := snd target; mi_type := r_type |}]).
(** 853-872: the order in which a section's relocations are written, by their offsets *)
Definition reloc_order {A} (off : A -> Z) (l : list A) : list A :=
  match l with
  | [] => l
  | first :: _ => match last (map Some l) None with
    | Some last => if off first <? off last then rev l else l
    | None => l
    end
  end.
