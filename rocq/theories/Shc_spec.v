(** Specification of dyld shared caches (C89 - C93). *)
From Coq Require Import String Ascii.
From Verif Require Export File_spec Core_spec Iter_spec Fix_spec.
From Verif Require Import Fkind_spec.
From Verif Require Export Shc_model.

(** * The layout of a cache file.  An integer of [n] bytes at an offset: *)
Definition u_at (e : endian) (F : bytes) (off : Z) (n : nat) (v : Z) : Prop := 0 <= v < 2 ^ (8 * Z.of_nat n) /\ holds F off (write_u e n v).
Definition magics : list (String.string * (arch * endian)) :=
  [("    i386", (AI386, Little)); ("  x86_64", (AX86_64, Little)); (" x86_64h", (AX86_64, Little)); ("     ppc", (APowerPc, Big));
   ("   armv6", (AArm, Little)); ("   armv7", (AArm, Little)); ("  armv7f", (AArm, Little)); ("  armv7s", (AArm, Little)); ("  armv7k", (AArm, Little));
   ("   arm64", (AAarch64, Little)); ("  arm64e", (AAarch64, Little))]%string.
Definition magic_at (F : bytes) (a : arch) (e : endian) : Prop := exists name, In (name, (a, e)) magics /\ holds F 0 (chars "dyld_v1" ++ chars name ++ [0]).
(** a table of structures *)
Definition table {A} (F : bytes) (off n : Z) (ok : A -> Prop) (enc : A -> bytes) (l : list A) : Prop :=
  zlen l = n /\ Forall ok l /\ (l <> [] -> holds F off (concat (map enc l))).
Definition smap_ok (slid : bool) (m : smap) : Prop :=
  u64_ok (sm_address m) /\ u64_ok (sm_size m) /\ u64_ok (sm_offset m) /\ u32_ok (sm_max m) /\ u32_ok (sm_init m) /\
  match sm_slide m with Some (o, n) => slid = true /\ u64_ok o /\ u64_ok n /\ u64_ok (sm_flags m) | None => slid = false /\ sm_flags m = 0 end.
Definition smap_enc (e : endian) (m : smap) : bytes :=
  write_u e 8 (sm_address m) ++ write_u e 8 (sm_size m) ++ write_u e 8 (sm_offset m) ++
  match sm_slide m with Some (o, n) => write_u e 8 o ++ write_u e 8 n ++ write_u e 8 (sm_flags m) | None => [] end ++
  write_u e 4 (sm_max m) ++ write_u e 4 (sm_init m).
(** the mappings: a newer header is one that starts its table of mappings after the newer fields *)
Definition mappings_at (e : endian) (F : bytes) (l : list smap) : Prop :=
  exists h o n, u_at e F 16 4 h /\
    (0x140 <= h /\ u_at e F 312 4 o /\ u_at e F 316 4 n /\ table F o n (smap_ok true) (smap_enc e) l \/
     h < 0x140 /\ o = h /\ u_at e F 20 4 n /\ table F o n (smap_ok false) (smap_enc e) l).
Definition ssub_ok (suffixed : bool) (s : ssub) : Prop :=
  zlen (su_uuid s) = 16 /\ bytes_ok (su_uuid s) /\ u64_ok (su_vm s) /\
  match su_suffix s with Some x => suffixed = true /\ zlen x = 32 /\ bytes_ok x | None => suffixed = false end.
Definition ssub_enc (e : endian) (s : ssub) : bytes := su_uuid s ++ write_u e 8 (su_vm s) ++ match su_suffix s with Some x => x | None => [] end.
Definition subcaches_at (e : endian) (F : bytes) (l : option (list ssub)) : Prop :=
  exists h, u_at e F 16 4 h /\
    match l with
    | None => h < 0x1c8
    | Some l => 0x1c8 <= h /\ exists o n, u_at e F 392 4 o /\ u_at e F 396 4 n /\ table F o n (ssub_ok (0x1d0 <=? h)) (ssub_enc e) l
    end.
(** the UUID of the file of local symbols *)
Definition symbols_at (e : endian) (F : bytes) (u : option bytes) : Prop :=
  exists h, u_at e F 16 4 h /\
    match u with
    | Some u => 0x1c8 <= h /\ zlen u = 16 /\ holds F 400 u /\ u <> zeros 16
    | None => h < 0x1c8 \/ holds F 400 (zeros 16)
    end.
Definition simage_ok (i : simage) : Prop := u64_ok (si_address i) /\ u64_ok (si_mod_time i) /\ u64_ok (si_inode i) /\ u32_ok (si_path i) /\ u32_ok (si_pad i).
Definition simage_enc (e : endian) (i : simage) : bytes :=
  write_u e 8 (si_address i) ++ write_u e 8 (si_mod_time i) ++ write_u e 8 (si_inode i) ++ write_u e 4 (si_path i) ++ write_u e 4 (si_pad i).
Definition images_at (e : endian) (F : bytes) (l : list simage) : Prop :=
  exists h o n, u_at e F 16 4 h /\ u_at e F (if h <? 0x1c8 then 24 else 448) 4 o /\ u_at e F (if h <? 0x1c8 then 28 else 452) 4 n /\ table F o n simage_ok (simage_enc e) l.

(** * A cache: the main file and its subcaches *)
Definition cache_file (e : endian) (f : sfile) : Prop := 552 <= zlen (sf_data f) /\ mappings_at e (sf_data f) (sf_maps f).
Definition cache_of (F : bytes) (subs : list bytes) (c : shc) : Prop :=
  magic_at F (sc_arch c) (sc_endian c) /\ sc_data c = F /\ images_at (sc_endian c) F (sc_images c) /\
  exists m fs infos sym, sc_files c = {| sf_data := F; sf_maps := m |} :: fs /\ cache_file (sc_endian c) {| sf_data := F; sf_maps := m |} /\
    subcaches_at (sc_endian c) F infos /\ symbols_at (sc_endian c) F sym /\
    Forall2 (fun i f => cache_file (sc_endian c) f /\ holds (sf_data f) 88 (su_uuid i)) (match infos with Some l => l | None => [] end) fs /\
    match sym with
    | None => subs = map sf_data fs
    | Some u => exists s, cache_file (sc_endian c) s /\ holds (sf_data s) 88 u /\ subs = map sf_data fs ++ [sf_data s]
    end.
(** the suffix of the file of a subcache, given its index (from 1) *)
Definition decimal (n : Z) (s : bytes) : Prop := Forall (fun d => 48 <= d <= 57) s /\ hd 0 s <> 48 /\ fold_left (fun a d => 10 * a + (d - 48)) s 0 = n.
Definition suffix_of (i : Z) (s : ssub) (x : bytes) : Prop :=
  match su_suffix s with
  | None => exists d, decimal i d /\ x = chars "." ++ d
  | Some f => ~ In 0 x /\ (x = f \/ exists r, f = x ++ 0 :: r)
  end.
Definition suffixes_at (e : endian) (F : bytes) (l : list bytes) : Prop :=
  exists infos sym xs, subcaches_at e F infos /\ symbols_at e F sym /\
    match infos with
    | None => l = []
    | Some infos => zlen xs = zlen infos /\ (forall i s, zget infos i = Some s -> exists x, zget xs i = Some x /\ suffix_of (i + 1) s x) /\
                    l = xs ++ match sym with Some _ => [chars ".symbols"] | None => [] end
    end.

(** * Addresses: the first mapping with the address, in the first file in which that mapping gives an offset *)
Definition contains (m : smap) (a : Z) : Prop := sm_address m <= a < sm_address m + sm_size m.
Definition file_offset (f : sfile) (a o : Z) : Prop :=
  exists l1 m l2, sf_maps f = l1 ++ m :: l2 /\ Forall (fun m => ~ contains m a) l1 /\ contains m a /\ o = sm_offset m + (a - sm_address m) /\ o < 2 ^ 64.
Definition cache_offset (c : shc) (a : Z) (d : bytes) (o : Z) : Prop :=
  exists f1 f f2, sc_files c = f1 ++ f :: f2 /\ Forall (fun f => forall o, ~ file_offset f a o) f1 /\ file_offset f a o /\ d = sf_data f.

(** * Slide information *)
Definition words_at (e : endian) (F : bytes) (off n : Z) (l : list Z) : Prop := table F off n u16_ok (write_u e 2) l.
Definition slide_at (e : endian) (F : bytes) (off size : Z) (s : slide) : Prop :=
  match s with
  | SNone => size = 0
  | S2 ps mask add st ex => size <> 0 /\ u_at e F off 4 2 /\ u_at e F (off + 4) 4 ps /\ u_at e F (off + 24) 8 mask /\ u_at e F (off + 32) 8 add /\
      (exists o n, u_at e F (off + 8) 4 o /\ u_at e F (off + 12) 4 n /\ words_at e F (off + o) n st) /\
      (exists o n, u_at e F (off + 16) 4 o /\ u_at e F (off + 20) 4 n /\ words_at e F (off + o) n ex)
  | S3 ps add st => size <> 0 /\ u_at e F off 4 3 /\ off + 24 <= zlen F /\ u_at e F (off + 4) 4 ps /\ u_at e F (off + 16) 8 add /\ (exists n, u_at e F (off + 8) 4 n /\ words_at e F (off + 24) n st)
  | S5 ps add st => size <> 0 /\ u_at e F off 4 5 /\ off + 24 <= zlen F /\ u_at e F (off + 4) 4 ps /\ u_at e F (off + 16) 8 add /\ (exists n, u_at e F (off + 8) 4 n /\ words_at e F (off + 24) n st)
  end.

(** * Relocations: what the iteration returns, with the offsets as it reports them, and whether an error follows *)
Section R2.
Context (e : endian) (F : bytes) (g : slide2).
(** The pointer at an offset of a page: the distance to the next one in units of 4 bytes, and the value without it *)
Definition ptr2_at (page off next value : Z) : Prop :=
  exists p k c, u_at e F (g2_mfo g + page + off) 8 p /\ g2_mask g = 2 ^ k * (2 * c + 1) /\ 0 <= k /\ 0 <= c /\ next = Z.land p (g2_mask g) / 2 ^ k /\ value = Z.ldiff p (g2_mask g).
Definition item2 (off value : Z) : list sreloc := if value =? 0 then [] else [{| sr_offset := off; sr_value := (value + g2_add g) mod 2 ^ 64; sr_auth := None |}].
Inductive chain2 (page : Z) : Z -> list sreloc -> bool -> Prop :=
| c2_last off value : ptr2_at page off 0 value -> chain2 page off (item2 off value) false
| c2_next off next value l err : ptr2_at page off next value -> next <> 0 -> off + 4 * next < 2 ^ 64 -> chain2 page (off + 4 * next) l err -> chain2 page off (item2 off value ++ l) err
| c2_far off next value : ptr2_at page off next value -> 2 ^ 64 <= off + 4 * next -> chain2 page off [] true
| c2_bad off : (forall p, ~ u_at e F (g2_mfo g + page + off) 8 p) -> chain2 page off [] true.
(** Several chains in a page, of which the last is marked.  The outcome is [None] if the iteration goes on with the next page,
    or [Some err] if it ends here, with an error or not. *)
Inductive extras2 (page : Z) : Z -> list sreloc -> option bool -> Prop :=
| x2_last i x l err : zget (g2_extras g) i = Some x -> 0x8000 <= x -> chain2 page (x mod 2 ^ 14 * 4) l err -> extras2 page i l (if err then Some true else None)
| x2_more i x l1 l2 r : zget (g2_extras g) i = Some x -> x < 0x8000 -> chain2 page (x mod 2 ^ 14 * 4) l1 false -> extras2 page (i + 1) l2 r -> extras2 page i (l1 ++ l2) r
| x2_stop i x l : zget (g2_extras g) i = Some x -> x < 0x8000 -> chain2 page (x mod 2 ^ 14 * 4) l true -> extras2 page i l (Some true)
| x2_end i : zget (g2_extras g) i = None -> extras2 page i [] (Some false).
(** A page by the value in the table: bit 14 is set for a page without relocations, bit 15 for a page with several chains *)
Inductive page2 (page x : Z) : list sreloc -> option bool -> Prop :=
| p2_none : Z.testbit x 14 = true -> page2 page x [] None
| p2_extra l r : Z.testbit x 14 = false -> Z.testbit x 15 = true -> extras2 page (x mod 2 ^ 14) l r -> page2 page x l r
| p2_chain l err : Z.testbit x 14 = false -> Z.testbit x 15 = false -> chain2 page (x mod 2 ^ 14 * 4) l err -> page2 page x l (if err then Some true else None).
Inductive pages2 : Z -> list Z -> list sreloc -> bool -> Prop :=
| q2_end p : pages2 p [] [] false
| q2_more p x xs l1 l2 err : page2 (p * g2_page_size g) x l1 None -> pages2 (p + 1) xs l2 err -> pages2 p (x :: xs) (l1 ++ l2) err
| q2_stop p x xs l err : page2 (p * g2_page_size g) x l (Some err) -> pages2 p (x :: xs) l err.
End R2.
Section R3.
Context (e : endian) (F : bytes) (g : slide3).
(** A pointer word: the distance to the next one in units of 8 bytes, the value and the authentication *)
Inductive ptr3 (v : Z) : Z -> Z -> option fauth -> Prop :=
| t3_plain target high next z : g3_v5 g = false -> packs [(43, target); (8, high); (11, next); (1, z); (1, 0)] v -> ptr3 v next (target + high * 2 ^ 56) None
| t3_auth off div ad key next z : g3_v5 g = false -> packs [(32, off); (16, div); (1, b2z ad); (2, key); (11, next); (1, z); (1, 1)] v ->
    ptr3 v next ((off + g3_add g) mod 2 ^ 64) (Some {| fa_key := key; fa_diversity := div; fa_addr_div := ad |})
| t5_plain off high z next : g3_v5 g = true -> packs [(34, off); (8, high); (10, z); (11, next); (1, 0)] v -> ptr3 v next (Z.lor ((off + g3_add g) mod 2 ^ 64) (high * 2 ^ 56)) None
| t5_auth off div ad (data : bool) next : g3_v5 g = true -> packs [(34, off); (16, div); (1, b2z ad); (1, b2z data); (11, next); (1, 1)] v ->
    ptr3 v next ((off + g3_add g) mod 2 ^ 64) (Some {| fa_key := if data then 2 else 0; fa_diversity := div; fa_addr_div := ad |}).
Definition ptr3_at (off next : Z) (r : sreloc) : Prop := exists v, u_at e F (g3_mfo g + off) 8 v /\ ptr3 v next (sr_value r) (sr_auth r) /\ sr_offset r = off.
Inductive chain3 : Z -> list sreloc -> bool -> Prop :=
| c3_last off r : ptr3_at off 0 r -> chain3 off [r] false
| c3_next off next r l err : ptr3_at off next r -> next <> 0 -> chain3 (off + 8 * next) l err -> chain3 off (r :: l) err
| c3_bad off : (forall v, ~ u_at e F (g3_mfo g + off) 8 v) -> chain3 off [] true.
Inductive pages3 : Z -> list Z -> list sreloc -> bool -> Prop :=
| q3_end p : pages3 p [] [] false
| q3_none p xs l err : pages3 (p + 1) xs l err -> pages3 p (0xffff :: xs) l err
| q3_more p x xs l1 l2 err : x <> 0xffff -> chain3 (p * g3_page_size g + x) l1 false -> pages3 (p + 1) xs l2 err -> pages3 p (x :: xs) (l1 ++ l2) err
| q3_stop p x xs l : x <> 0xffff -> chain3 (p * g3_page_size g + x) l true -> pages3 p (x :: xs) l true.
End R3.
(** the relocations of a mapping *)
Definition relocs_of (e : endian) (F : bytes) (m : smap) (l : list sreloc) (err : bool) : Prop :=
  match sm_slide m with
  | None => l = [] /\ err = false
  | Some (o, n) => exists s, slide_at e F o n s /\
      match s with
      | SNone => l = [] /\ err = false
      | S2 ps mask add st ex => pages2 e F {| g2_mfo := sm_offset m; g2_page_size := ps; g2_mask := mask; g2_add := add; g2_starts := st; g2_extras := ex |} 0 st l err
      | S3 ps add st => pages3 e F {| g3_v5 := false; g3_mfo := sm_offset m; g3_page_size := ps; g3_add := add; g3_starts := st |} 0 st l err
      | S5 ps add st => pages3 e F {| g3_v5 := true; g3_mfo := sm_offset m; g3_page_size := ps; g3_add := add; g3_starts := st |} 0 st l err
      end
  end.
