(** Specification of ELF relocations and dynamic entries, independent of the reader. *)
From Verif Require Export Elf_spec Rel_spec Iter_spec ElfR_model.

(** * Entries *)
(** The values that the format can hold: 24-bit symbol and 8-bit type in ELF32. *)
Definition rel_ok (is64 is_rela : bool) (r : crel) : Prop :=
  (if is64 then 0 <= cr_offset r < 2 ^ 64 /\ 0 <= cr_sym r < 2 ^ 32 /\ 0 <= cr_type r < 2 ^ 32
   else 0 <= cr_offset r < 2 ^ 32 /\ 0 <= cr_sym r < 2 ^ 24 /\ 0 <= cr_type r < 2 ^ 8) /\
  (if is_rela then (if is64 then - 2 ^ 63 <= cr_addend r < 2 ^ 63 else - 2 ^ 31 <= cr_addend r < 2 ^ 31) else cr_addend r = 0).
(** The layout given by the ELF specification; [mips64el] is the one of 64-bit little endian MIPS, where [r_info] is a
    32-bit symbol followed by four single-byte fields, the last being the (first) type. *)
Definition rel_layout (is64 is_rela : bool) (e : endian) (mips64el : bool) (r : crel) : bytes :=
  if is64 then
    write_u e 8 (cr_offset r) ++
    (if mips64el && is_rela then write_u Little 4 (cr_sym r) ++ write_u Big 4 (cr_type r)
     else write_u e 8 (cr_sym r * 2 ^ 32 + cr_type r)) ++
    (if is_rela then write_i e 8 (cr_addend r) else [])
  else
    write_u e 4 (cr_offset r) ++ write_u e 4 (cr_sym r * 2 ^ 8 + cr_type r) ++
    (if is_rela then write_i e 4 (cr_addend r) else []).

(** * Relocation sections *)
(** section [j] of [t] holds relocations for section [i], with the symbols of section [symsec] *)
Definition relocates (t : sectab) (symsec i j : Z) : bool :=
  match zget (stab_sections t) j with
  | Some h => ((sh_type h =? 9) || (sh_type h =? 4) || (sh_type h =? 1073741844)) && (sh_link h =? symsec) && (sh_info h =? i)
  | None => false
  end.
Definition reloc_section (h : shdr) : Prop := sh_type h = 9 \/ sh_type h = 4 \/ sh_type h = 1073741844.
(** the list obtained by calling [get] repeatedly *)
Inductive follows (get : Z -> option Z) : Z -> list Z -> Prop :=
| follows_end i : get i = None -> follows get i []
| follows_next i j l : get i = Some j -> follows get j l -> follows get i (j :: l).
(** the section indices *)
Definition indices (t : sectab) : list Z := map Z.of_nat (seq 0 (length (stab_sections t))).
(** section [j] (not the null section) holds relocations with the symbols of section [dynsym] *)
Definition dyn_relocates (t : sectab) (dynsym j : Z) : bool :=
  (1 <=? j) && match zget (stab_sections t) j with
  | Some h => ((sh_type h =? 9) || (sh_type h =? 4) || (sh_type h =? 1073741844)) && (sh_link h =? dynsym)
  | None => false
  end.
(** A relocation section the table of chains cannot represent: its target does not exist or is a relocation section. *)
Definition bad_target (t : sectab) (symsec : Z) : Prop :=
  exists h, In h (stab_sections t) /\ reloc_section h /\ sh_link h = symsec /\ sh_info h <> 0 /\
    forall g, zget (stab_sections t) (sh_info h) = Some g -> reloc_section g.

(** The relocations of one section, each with the flag that says that the addend is implicit:
    - a table of entries written by the encoder,
    - a compact (CREL) section: the announced number of entries, or those before the first one that is malformed,
    - nothing, if the section data is not in the file, not a table of entries or has no valid header. *)
Inductive sec_relocs (is64 : bool) (e : endian) (mips64el : bool) (F : bytes) (h : shdr) : list (crel * bool) -> Prop :=
| sr_rel l : sh_type h = 9 -> Forall (rel_ok is64 false) l ->
    content F h (concat (map (enc_rel is64 false e mips64el) l)) -> sec_relocs is64 e mips64el F h (map (fun r => (r, true)) l)
| sr_rela l : sh_type h = 4 -> Forall (rel_ok is64 true) l -> (mips64el = true -> e = Little) ->
    content F h (concat (map (enc_rel is64 true e mips64el) l)) -> sec_relocs is64 e mips64el F h (map (fun r => (r, false)) l)
| sr_crel henc count rela shift b l rest : sh_type h = 1073741844 -> crel_header henc count rela shift ->
    crel_entries rela shift crel_default b l -> content F h (henc ++ b ++ rest) -> zlen l <= count ->
    (count = zlen l \/ forall x tl c, rest = x ++ tl -> ~ crel_entry rela shift (last l crel_default) x c) ->
    sec_relocs is64 e mips64el F h (map (fun r => (r, negb rela)) l)
| sr_crel_bad : sh_type h = 1073741844 ->
    (forall henc count rela shift rest, content F h (henc ++ rest) -> ~ crel_header henc count rela shift) -> sec_relocs is64 e mips64el F h []
| sr_bad (is_rela : bool) : sh_type h = (if is_rela then 4 else 9) ->
    (forall d, content F h d -> zlen d mod rel_size is64 is_rela <> 0) -> sec_relocs is64 e mips64el F h [].
(** what the user sees of an entry: offset, symbol unless 0, addend, type *)
Definition reloc_view (p : crel * bool) : Z * reloc :=
  (cr_offset (fst p), {| rl_sym := if cr_sym (fst p) =? 0 then None else Some (cr_sym (fst p)); rl_addend := cr_addend (fst p);
                         rl_implicit := snd p; rl_type := cr_type (fst p) |}).
(** The relocations of the sections [js], in this order *)
Definition all_relocs (is64 : bool) (e : endian) (mips64el : bool) (F : bytes) (t : sectab) (js : list Z) (l : list (crel * bool)) : Prop :=
  exists ll, l = concat ll /\ Forall2 (fun j x => exists h, zget (stab_sections t) j = Some h /\ sec_relocs is64 e mips64el F h x) js ll.

(** * Dynamic entries *)
Definition dyn_ok (is64 : bool) (d : dynent) : Prop :=
  if is64 then - 2 ^ 63 <= d_tag d < 2 ^ 63 /\ 0 <= d_val d < 2 ^ 64 else - 2 ^ 31 <= d_tag d < 2 ^ 31 /\ 0 <= d_val d < 2 ^ 32.
Definition dyn_layout (is64 : bool) (e : endian) (d : dynent) : bytes :=
  if is64 then write_i e 8 (d_tag d) ++ write_u e 8 (d_val d) else write_i e 4 (d_tag d) ++ write_u e 4 (d_val d).
