(** Specification of file kinds, universal binaries and short imports (C71, C72, C73). *)
From Coq Require Import String Ascii.
From Verif Require Export File_spec Core_spec.
From Verif Require Export Fkind_model.

Definition chars (s : string) : bytes := map (fun c => Z.of_N (N_of_ascii c)) (list_ascii_of_string s).
(** The magic numbers that identify a kind, as the bytes of the file at the given offset *)
Definition plain_magic (k : fkind) : list bytes :=
  match k with
  | FkArchive => [chars "!<arch>" ++ [10]; chars "!<thin>" ++ [10]]
  | FkDyldCache => [chars "dyld_v1 "]
  | FkElf32 => [[0x7f; 0x45; 0x4c; 0x46; 1]]
  | FkElf64 => [[0x7f; 0x45; 0x4c; 0x46; 2]]
  | FkMach32 => [write_u Big 4 0xfeedface; write_u Little 4 0xfeedface]
  | FkMach64 => [write_u Big 4 0xfeedfacf; write_u Little 4 0xfeedfacf]
  | FkFat32 => [write_u Big 4 0xcafebabe]
  | FkFat64 => [write_u Big 4 0xcafebabf]
  | FkCoff => map (write_u Little 2) [0x1c4; 0xaa64; 0xa641; 0x1f0; 0x1f1; 0x1f2; 0x14c; 0x8664]
  | FkCoffImport => [[0; 0; 0xff; 0xff; 0; 0]]
  | FkXcoff32 => [write_u Big 2 0x1df]
  | FkXcoff64 => [write_u Big 2 0x1f7]
  | _ => []
  end.
Inductive has_kind (F : bytes) (off : Z) : fkind -> Prop :=
| hk_plain k m : In m (plain_magic k) -> holds F off m -> has_kind F off k
| hk_wasm x y : holds F off [0; 0x61; 0x73; 0x6d; x; y; 0; 0] -> has_kind F off FkWasm
(** a DOS header, with the offset of a PE header whose optional header has the given magic *)
| hk_pe (is64 : bool) nt : off = 0 -> holds F 0 [0x4d; 0x5a] -> u32_ok nt -> 64 <= zlen F -> holds F 60 (write_u Little 4 nt) -> nt + 120 <= zlen F ->
    holds F nt [0x50; 0x45; 0; 0] -> holds F (nt + 24) (write_u Little 2 (if is64 then 0x20b else 0x10b)) -> has_kind F off (if is64 then FkPe64 else FkPe32)
| hk_big : off = 0 -> holds F 0 [0; 0; 0xff; 0xff; 2; 0] -> 32 <= zlen F ->
    holds F 12 [0xC7; 0xA1; 0xBA; 0xD1; 0xEE; 0xBA; 0xA9; 0x4B; 0xAF; 0x20; 0xFA; 0xF6; 0x6A; 0xA4; 0xDC; 0xB8] -> has_kind F off FkCoffBig.

(** * Universal binaries *)
Definition fatarch_ok (is64 : bool) (a : fatarch) : Prop :=
  u32_ok (ft_cputype a) /\ u32_ok (ft_cpusubtype a) /\ u32_ok (ft_align a) /\
  if is64 then u64_ok (ft_offset a) /\ u64_ok (ft_size a) /\ u32_ok (ft_reserved a) else u32_ok (ft_offset a) /\ u32_ok (ft_size a) /\ ft_reserved a = 0.
Definition fatarch_enc (is64 : bool) (a : fatarch) : bytes :=
  write_u Big 4 (ft_cputype a) ++ write_u Big 4 (ft_cpusubtype a) ++
  (if is64 then write_u Big 8 (ft_offset a) ++ write_u Big 8 (ft_size a) ++ write_u Big 4 (ft_align a) ++ write_u Big 4 (ft_reserved a)
   else write_u Big 4 (ft_offset a) ++ write_u Big 4 (ft_size a) ++ write_u Big 4 (ft_align a)).
Definition fat_file (is64 : bool) (l : list fatarch) : bytes :=
  write_u Big 4 (if is64 then 0xcafebabf else 0xcafebabe) ++ write_u Big 4 (zlen l) ++ concat (map (fatarch_enc is64) l).

(** * Short imports *)
(** The header and the strings behind it.  [junk]: the rest of the data *)
Record shortimport := { si_machine : Z; si_time : Z; si_ordinal : Z; si_type : Z; si_name_type : Z; si_reserved : Z; si_symbol : bytes; si_dll : bytes; si_export : option bytes; si_junk : bytes }.
Definition str0 (s : bytes) : Prop := ~ In 0 s.
Definition shortimport_ok (s : shortimport) : Prop :=
  u16_ok (si_machine s) /\ u32_ok (si_time s) /\ u16_ok (si_ordinal s) /\ 0 <= si_type s < 3 /\ 0 <= si_name_type s < 5 /\ 0 <= si_reserved s < 2 ^ 11 /\
  str0 (si_symbol s) /\ str0 (si_dll s) /\ match si_export s with Some x => str0 x /\ si_name_type s = 4 | None => si_name_type s <> 4 end.
Definition shortimport_data (s : shortimport) : bytes := si_symbol s ++ [0] ++ si_dll s ++ [0] ++ match si_export s with Some x => x ++ [0] | None => [] end ++ si_junk s.
Definition shortimport_enc (s : shortimport) : bytes :=
  [0; 0; 0xff; 0xff; 0; 0] ++ write_u Little 2 (si_machine s) ++ write_u Little 4 (si_time s) ++ write_u Little 4 (zlen (shortimport_data s)) ++
  write_u Little 2 (si_ordinal s) ++ write_u Little 2 (si_type s + 4 * si_name_type s + 32 * si_reserved s) ++ shortimport_data s.
(** The imported name: the symbol, without one leading [?], [@] or [_], without what follows the next [@] *)
Inductive stripped : bytes -> bytes -> Prop :=
| st_one b r : b = 63 \/ b = 64 \/ b = 95 -> stripped (b :: r) r
| st_other b r : b <> 63 -> b <> 64 -> b <> 95 -> stripped (b :: r) (b :: r)
| st_empty : stripped [] [].
Inductive before_at : bytes -> bytes -> Prop :=
| ba_cut a r : ~ In 64 a -> before_at (a ++ 64 :: r) a
| ba_all a : ~ In 64 a -> before_at a a.
Inductive imported (s : shortimport) : iname -> Prop :=
| ip_ordinal : si_name_type s = 0 -> imported s (InOrdinal (si_ordinal s))
| ip_name : si_name_type s = 1 -> imported s (InName (si_symbol s))
| ip_noprefix n : si_name_type s = 2 -> stripped (si_symbol s) n -> imported s (InName n)
| ip_undecorate n m : si_name_type s = 3 -> stripped (si_symbol s) n -> before_at n m -> imported s (InName m)
| ip_export x : si_name_type s = 4 -> si_export s = Some x -> imported s (InName x).
(** What is shown of a short import *)
Definition kind_number (k : itype) : Z := match k with ItCode => 0 | ItData => 1 | ItConst => 2 end.
Definition shows_import (s : shortimport) (f : importfile) : Prop :=
  im_machine f = si_machine s /\ im_ordinal f = si_ordinal s /\ kind_number (im_kind f) = si_type s /\ im_dll f = si_dll s /\ im_symbol f = si_symbol s /\ imported s (im_name f).
