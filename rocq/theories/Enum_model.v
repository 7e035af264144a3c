(** Model of the enumerations of src/common.rs.  Definitions only. *)
From Verif Require Export Core_model.

(** src/common.rs 8-49 [Architecture] *)
Inductive arch := AUnknown | AAarch64 | AAarch64_Ilp32 | AAlpha | AArm | AAvr | ABpf | ACsky | AE2K32 | AE2K64 | AI386 | AX86_64
  | AX86_64_X32 | AHexagon | AHppa | AIa64 | ALoongArch32 | ALoongArch64 | AM68k | AMips | AMips64 | AMips64_N32 | AMsp430
  | APowerPc | APowerPc64 | ARiscv32 | ARiscv64 | AS390x | ASbf | ASharc | ASparc | ASparc32Plus | ASparc64 | ASuperH
  | AWasm32 | AWasm64 | AXtensa.
Scheme Equality for arch.
(** 60-105 [address_size], in bytes *)
Definition address_size (a : arch) : option Z :=
  match a with
  | AUnknown => None
  | AAvr => Some 1
  | AMsp430 => Some 2
  | AAarch64 | AAlpha | ABpf | AE2K64 | AX86_64 | AIa64 | ALoongArch64 | AMips64 | APowerPc64 | ARiscv64 | AS390x | ASbf
  | ASparc64 | AWasm64 => Some 8
  | _ => Some 4
  end.
(** 337-384 [RelocationKind] *)
Inductive rkind := KUnknown | KNone | KAbsolute | KRelative | KGot | KGotRelative | KGotBaseRelative | KGotBaseOffset
  | KPltRelative | KImageOffset | KSectionOffset | KSectionIndex.
Scheme Equality for rkind.
(** 392-466 [RelocationEncoding] *)
Inductive renc := EUnknown | EGeneric | EX86Signed | EX86RipRelative | EX86RipRelativeMovq | EX86Branch | ES390xDbl
  | EAArch64Call | ELoongArchBranch | ESharcTypeA | ESharcTypeB | EE2KLit | EE2KDisp.
Scheme Equality for renc.
(** 160-243 [SectionKind] *)
Inductive skind := SKUnknown | SKText | SKData | SKReadOnlyData | SKReadOnlyDataWithRel | SKReadOnlyString | SKUninitializedData
  | SKTls | SKUninitializedTls | SKTlsVariables | SKOtherString | SKOther | SKDebug | SKDebugString | SKLinker | SKNote | SKMetadata.
Scheme Equality for skind.
(** 247-249 [is_bss] *)
Definition is_bss (k : skind) : bool := match k with SKUninitializedData | SKUninitializedTls => true | _ => false end.
(** 290-305 [SymbolKind] *)
Inductive symkind := YUnknown | YText | YData | YSection | YFile | YLabel | YTls.
Scheme Equality for symkind.
(** 309-318 [SymbolScope] *)
Inductive scope := ScUnknown | ScCompilation | ScLinkage | ScDynamic.
Scheme Equality for scope.
(** 727-773 [RelocationFlags], without Wasm *)
Inductive rflags := RFgeneric (k : rkind) (e : renc) (size : Z) | RFelf (r_type : Z) | RFcoff (typ : Z)
  | RFmacho (r_type : Z) (pcrel : bool) (length : Z) | RFxcoff (rtype rsize : Z).
(** src/endian.rs [Endianness] has decidable equality *)
Definition endian_eqb (a b : endian) : bool := match a, b with Little, Little | Big, Big => true | _, _ => false end.
