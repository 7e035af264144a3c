(** Specification of chained fixups (C69, C70). *)
From Verif Require Export File_spec Core_spec Iter_spec.
From Verif Require Export Fix_model.

(** * Packed words: fields [(width, value)] from the lowest bit up *)
Fixpoint packed (fs : list (Z * Z)) : Z := match fs with [] => 0 | (w, x) :: r => x + 2 ^ w * packed r end.
Definition packs (fs : list (Z * Z)) (v : Z) : Prop := Forall (fun f => 0 <= snd f < 2 ^ fst f) fs /\ v = packed fs.
Definition b2z (b : bool) : Z := if b then 1 else 0.

(** * Pointers.  [d] is the distance in bytes to the next pointer of the chain (0: the last one). *)
(** The arm64e pointers: [w] bits of ordinal, distances in units of [stride], addresses relative to [vm] *)
Inductive arm64e (w stride vm v : Z) : Z -> fixup -> Prop :=
| a_rebase target high next : packs [(43, target); (8, high); (11, next); (1, 0); (1, 0)] v ->
    arm64e w stride vm v (next * stride) (FRebase (Z.lor ((target - vm) mod 2 ^ 64) (high * 2 ^ 56)) None)
| a_auth_rebase target div ad key next : packs [(32, target); (16, div); (1, b2z ad); (2, key); (11, next); (1, 0); (1, 1)] v ->
    arm64e w stride vm v (next * stride) (FRebase target (Some {| fa_key := key; fa_diversity := div; fa_addr_div := ad |}))
| a_bind ordinal z addend next : - 2 ^ 18 <= addend < 2 ^ 18 -> packs [(w, ordinal); (32 - w, z); (19, addend mod 2 ^ 19); (11, next); (1, 1); (1, 0)] v ->
    arm64e w stride vm v (next * stride) (FBind ordinal addend None)
| a_auth_bind ordinal z div ad key next : packs [(w, ordinal); (32 - w, z); (16, div); (1, b2z ad); (2, key); (11, next); (1, 1); (1, 1)] v ->
    arm64e w stride vm v (next * stride) (FBind ordinal 0 (Some {| fa_key := key; fa_diversity := div; fa_addr_div := ad |})).
Inductive pointer (vm v : Z) : Z -> Z -> fixup -> Prop :=
| p_arm64e d fx : arm64e 16 8 vm v d fx -> pointer vm v 1 d fx
| p_arm64e_kernel d fx : arm64e 16 4 0 v d fx -> pointer vm v 7 d fx
| p_arm64e_userland d fx : arm64e 16 8 0 v d fx -> pointer vm v 9 d fx
| p_arm64e_firmware d fx : arm64e 16 4 vm v d fx -> pointer vm v 10 d fx
| p_arm64e_userland24 d fx : arm64e 24 8 0 v d fx -> pointer vm v 12 d fx
| p_64_rebase f base target high r next : f = 2 /\ base = vm \/ f = 6 /\ base = 0 -> packs [(36, target); (8, high); (7, r); (12, next); (1, 0)] v ->
    pointer vm v f (next * 4) (FRebase (Z.lor ((target - base) mod 2 ^ 64) (high * 2 ^ 56)) None)
| p_64_bind f ordinal addend r next : f = 2 \/ f = 6 -> packs [(24, ordinal); (8, addend); (19, r); (12, next); (1, 1)] v -> pointer vm v f (next * 4) (FBind ordinal addend None)
| p_kernel f stride target level r next : f = 8 /\ stride = 4 \/ f = 11 /\ stride = 1 -> packs [(30, target); (2, level); (19, r); (12, next); (1, 0)] v ->
    pointer vm v f (next * stride) (FKernel target level None)
| p_kernel_auth f stride target level div ad key next : f = 8 /\ stride = 4 \/ f = 11 /\ stride = 1 ->
    packs [(30, target); (2, level); (16, div); (1, b2z ad); (2, key); (12, next); (1, 1)] v ->
    pointer vm v f (next * stride) (FKernel target level (Some {| fa_key := key; fa_diversity := div; fa_addr_div := ad |}))
| p_32_rebase target next : packs [(26, target); (5, next); (1, 0)] v -> pointer vm v 3 (next * 4) (FRebase ((target - vm) mod 2 ^ 64) None)
| p_32_bind ordinal addend next : packs [(20, ordinal); (6, addend); (5, next); (1, 1)] v -> pointer vm v 3 (next * 4) (FBind ordinal addend None)
| p_32_cache target next : packs [(30, target); (2, next)] v -> pointer vm v 4 (next * 4) (FRebase target None)
| p_32_firmware target next : packs [(26, target); (6, next)] v -> pointer vm v 5 (next * 4) (FRebase target None)
| p_shared target high r next : packs [(34, target); (8, high); (10, r); (11, next); (1, 0)] v -> pointer vm v 13 (next * 8) (FRebase (target + high * 2 ^ 56) None)
| p_shared_auth target div ad (data : bool) next : packs [(34, target); (16, div); (1, b2z ad); (1, b2z data); (11, next); (1, 1)] v ->
    pointer vm v 13 (next * 8) (FRebase target (Some {| fa_key := if data then 2 else 0; fa_diversity := div; fa_addr_div := ad |}))
| p_segmented off index r next : packs [(28, off); (4, index); (19, r); (12, next); (1, 0)] v -> pointer vm v 14 (next * 4) (FSegmented index off None)
| p_segmented_auth off index div ad key next : packs [(28, off); (4, index); (16, div); (1, b2z ad); (2, key); (12, next); (1, 1)] v ->
    pointer vm v 14 (next * 4) (FSegmented index off (Some {| fa_key := key; fa_diversity := div; fa_addr_div := ad |})).
Definition ptr_size (format : Z) : Z := if (format =? 3) || (format =? 4) || (format =? 5) then 4 else 8.

(** * Chains.  A list of fixups with their offsets, and whether an error follows *)
Section Chains.
Context (e : endian) (g : cseg) (vm : Z) (D : bytes).
Definition ptr_at (off d : Z) (fx : fixup) : Prop := exists b, holds D off b /\ zlen b = ptr_size (cs_format g) /\ pointer vm (read_u e b) (cs_format g) d fx.
Inductive chain : Z -> list (Z * fixup) -> bool -> Prop :=
| ch_last off fx : ptr_at off 0 fx -> chain off [(off, fx)] false
| ch_next off d fx l err : ptr_at off d fx -> d <> 0 -> chain (off + d) l err -> chain off ((off, fx) :: l) err
| ch_bad off : (forall d fx, ~ ptr_at off d fx) -> chain off [] true.
(** several chains in a page: a list of starts from index [i] of the starts, of which the last is marked *)
Inductive chains (page_off : Z) : Z -> list (Z * fixup) -> bool -> Prop :=
| cs_last i x l err : zget (cs_starts g) i = Some x -> 0x8000 <= x -> chain (page_off + (x - 0x8000)) l err -> chains page_off i l err
| cs_more i x l1 l2 err : zget (cs_starts g) i = Some x -> x < 0x8000 -> chain (page_off + x) l1 false -> chains page_off (i + 1) l2 err -> chains page_off i (l1 ++ l2) err
| cs_stop i x l : zget (cs_starts g) i = Some x -> x < 0x8000 -> chain (page_off + x) l true -> chains page_off i l true
| cs_bad i : zget (cs_starts g) i = None -> chains page_off i [] true.
Inductive page (p : Z) : list (Z * fixup) -> bool -> Prop :=
| pg_none : zget (cs_starts g) p = Some 0xffff -> page p [] false
| pg_one x l err : zget (cs_starts g) p = Some x -> x < 0x8000 -> chain (p * cs_page_size g + x) l err -> page p l err
| pg_multi x l err : zget (cs_starts g) p = Some x -> 0x8000 <= x < 0xffff -> chains (p * cs_page_size g) (x - 0x8000) l err -> page p l err
| pg_bad : zget (cs_starts g) p = None -> page p [] true.
Inductive pages : Z -> list (Z * fixup) -> bool -> Prop :=
| ps_end p : cs_page_count g <= p -> pages p [] false
| ps_more p l1 l2 err : p < cs_page_count g -> page p l1 false -> pages (p + 1) l2 err -> pages p (l1 ++ l2) err
| ps_stop p l : p < cs_page_count g -> page p l true -> pages p l true.
End Chains.
Definition cseg_ok (g : cseg) : Prop :=
  u32_ok (cs_size g) /\ u16_ok (cs_page_size g) /\ u16_ok (cs_format g) /\ u64_ok (cs_offset g) /\ u32_ok (cs_max g) /\ u16_ok (cs_page_count g) /\ Forall u16_ok (cs_starts g).

(** * The payload of the command: header, imports, segments *)
Record cheader := { ch_starts : Z; ch_imports : Z; ch_symbols : Z; ch_count : Z; ch_format : Z; ch_compression : Z }.
Definition cheader_ok (h : cheader) : Prop := u32_ok (ch_starts h) /\ u32_ok (ch_imports h) /\ u32_ok (ch_symbols h) /\ u32_ok (ch_count h) /\ u32_ok (ch_format h) /\ u32_ok (ch_compression h).
Definition cheader_enc (e : endian) (h : cheader) : bytes :=
  write_u e 4 0 ++ write_u e 4 (ch_starts h) ++ write_u e 4 (ch_imports h) ++ write_u e 4 (ch_symbols h) ++ write_u e 4 (ch_count h) ++ write_u e 4 (ch_format h) ++ write_u e 4 (ch_compression h).
Inductive import_enc (e : endian) (symbols : bytes) : Z -> cimport -> bytes -> Prop :=
| im_plain dylib weak off name b : -15 <= dylib <= 240 -> zlen b = 4 -> packs [(8, dylib mod 2 ^ 8); (1, b2z weak); (23, off)] (read_u e b) -> string_at symbols off name ->
    import_enc e symbols 1 {| cm_dylib := dylib; cm_weak := weak; cm_addend := 0; cm_name := name |} b
| im_addend dylib weak off name b a : -15 <= dylib <= 240 -> zlen b = 4 -> packs [(8, dylib mod 2 ^ 8); (1, b2z weak); (23, off)] (read_u e b) -> string_at symbols off name -> zlen a = 4 ->
    import_enc e symbols 2 {| cm_dylib := dylib; cm_weak := weak; cm_addend := read_i e a; cm_name := name |} (b ++ a)
| im_64 dylib weak z off name b a : -15 <= dylib <= 65520 -> zlen b = 8 -> packs [(16, dylib mod 2 ^ 16); (1, b2z weak); (15, z); (32, off)] (read_u e b) -> string_at symbols off name -> zlen a = 8 ->
    import_enc e symbols 3 {| cm_dylib := dylib; cm_weak := weak; cm_addend := read_i e a; cm_name := name |} (b ++ a).
(** the starts of segment [i], at offset [off] of the starts [d] of the image *)
Definition segment_at (e : endian) (d : bytes) (i off : Z) (g : cseg) : Prop :=
  cs_index g = i /\ cseg_ok g /\ 22 <= cs_size g /\ zlen (cs_starts g) = (cs_size g - 22) / 2 /\
  holds d off (write_u e 4 (cs_size g) ++ write_u e 2 (cs_page_size g) ++ write_u e 2 (cs_format g) ++ write_u e 8 (cs_offset g) ++ write_u e 4 (cs_max g) ++
               write_u e 2 (cs_page_count g) ++ concat (map (write_u e 2) (cs_starts g))).
(** the starts of the image: the offsets of the starts of its segments, 0 for a segment without fixups *)
Definition image_starts (e : endian) (offs : list Z) : bytes := write_u e 4 (zlen offs) ++ concat (map (write_u e 4) offs).
Fixpoint present (i : Z) (offs : list Z) : list (Z * Z) :=
  match offs with [] => [] | off :: r => if off =? 0 then present (i + 1) r else (i, off) :: present (i + 1) r end.
Definition segment_result (e : endian) (d : bytes) (io : Z * Z) (r : option cseg) : Prop :=
  match r with Some g => segment_at e d (fst io) (snd io) g | None => forall g, ~ segment_at e d (fst io) (snd io) g end.
(** what reading [count] imports from [imports] amounts to: the items, and whether an error follows *)
Definition imports_read (e : endian) (symbols : bytes) (fmt count : Z) (imports : bytes) (l : list cimport) (err : bool) : Prop :=
  exists post, seq_of (import_enc e symbols fmt) post l imports /\
    if err then zlen l < count /\ forall x b tl, post = b ++ tl -> ~ import_enc e symbols fmt x b else zlen l = count.
