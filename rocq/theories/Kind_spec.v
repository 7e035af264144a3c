(** What a relocation means once it has been written and read: stated with the public enumerations only. *)
From Verif Require Export Kind_model.

(** A relocation of a call or branch: [Relative] and [PltRelative] are one type to most linkers. *)
Definition is_call (enc : renc) : Prop := enc = EAArch64Call \/ enc = EX86Branch \/ enc = ELoongArchBranch.
(** The kind that is read is the kind that was asked for; for a call it may be the other of [Relative] and [PltRelative]. *)
Definition kind_kept (k k' : rkind) (enc' : renc) : Prop :=
  k' = k \/ (is_call enc' /\ (k = KRelative \/ k = KPltRelative) /\ (k' = KRelative \/ k' = KPltRelative)).
(** the same, in a format where a GOT or PLT reference is a plain relative relocation (COFF) *)
Definition coff_kind_kept (k k' : rkind) : Prop := k' = k \/ (k' = KRelative /\ (k = KGotRelative \/ k = KPltRelative)).

(** A Mach-O relocation as a program describes it *)
Record mrel := { mr_offset : Z; mr_type : Z; mr_pcrel : bool; mr_length : Z; mr_target : Z * bool; mr_sub : option Z; mr_addend : Z }.
(** The types that are a pair of the next entry, for each CPU type *)
Definition is_pair (cputype t : Z) : Prop :=
  ((cputype = 16777228 \/ cputype = 33554444) /\ (t = 1 \/ t = 10)) \/ (cputype = 16777223 /\ t = 5).
Definition cpu_of (a : arch) (c : Z) : Prop := macho_cputype a = Ok c.
(** What fits an entry: 24-bit symbol numbers and addend; the top bit of the offset marks a scattered entry, except on x86-64 *)
Record mrel_ok (c : Z) (r : mrel) : Prop := {
  mk_offset : 0 <= mr_offset r < (if c =? 16777223 then 2 ^ 32 else 2 ^ 31);
  mk_type : 0 <= mr_type r < 16;
  mk_pair : ~ is_pair c (mr_type r);
  mk_length : 0 <= mr_length r < 4;
  mk_target : 0 <= fst (mr_target r) < 2 ^ 24;
  mk_sub : match mr_sub r with Some n => 0 <= n < 2 ^ 24 | None => True end;
  mk_addend : - 2 ^ 23 <= mr_addend r < 2 ^ 23 }.
(** The target, the subtractor, the offset, the flags and the addend that a reader reports *)
Definition reads_as (c : Z) (r : mrel) (x : rrel) : Prop :=
  rr_offset x = mr_offset r /\ rr_flags x = RFmacho (mr_type r) (mr_pcrel r) (mr_length r) /\ rr_subtractor x = mr_sub r /\
  rr_target x = (if snd (mr_target r) then TSymbol (fst (mr_target r)) else if fst (mr_target r) =? 0 then TAbsolute else TSection (fst (mr_target r))) /\
  rr_implicit x = (mr_addend r =? 0) /\
  (mr_pcrel r = false \/ (c <> 7 /\ c <> 16777223) -> rr_addend x = mr_addend r).
