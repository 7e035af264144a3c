(** Specification of the ELF version sections, independent of the iterators. *)
From Verif Require Export Ver_model.

(** * Chains in arbitrary data *)
(** A chain of records at offsets of [data]: [fits o] says whether the record at offset [o] lies, with everything it
    points to, inside [data]; [next o] is the distance to the next record, 0 for the last.  [chain o l er]: the
    chain starting at [o] visits the offsets [l]; [er] tells that it then reaches a record that does not fit. *)
Inductive chain (len : Z) (fits : Z -> Prop) (next : Z -> Z) : Z -> list Z -> bool -> Prop :=
| ch_end : chain len fits next len [] false
| ch_bad o : 0 <= o < len -> ~ fits o -> chain len fits next o [] true
| ch_last o : 0 <= o < len -> fits o -> next o = 0 -> chain len fits next o [o] false
| ch_next o l er : 0 <= o < len -> fits o -> next o > 0 -> chain len fits next (o + next o) l er ->
    chain len fits next o (o :: l) er.
(** Auxiliary records: exactly [cnt] of them, each [next o] after the previous one. *)
Inductive aux_chain (fits : Z -> Prop) (next : Z -> Z) : Z -> Z -> list Z -> bool -> Prop :=
| ac_end o : aux_chain fits next o 0 [] false
| ac_bad o cnt : 0 < cnt -> ~ fits o -> aux_chain fits next o cnt [] true
| ac_next o cnt l er : 0 < cnt -> fits o -> aux_chain fits next (o + next o) (cnt - 1) l er ->
    aux_chain fits next o cnt (o :: l) er.
(** The structs at an offset of the data. *)
Definition at_ {A} (of : endian -> bytes -> A) (e : endian) (data : bytes) (o : Z) : A := of e (zdrop o data).
Definition verdef_fits e data o := o + 20 <= zlen data /\ o + vd_aux (at_ verdef_of e data o) <= zlen data /\
  o + vd_next (at_ verdef_of e data o) <= zlen data.
Definition verneed_fits e data o := o + 16 <= zlen data /\ o + vn_aux (at_ verneed_of e data o) <= zlen data /\
  o + vn_next (at_ verneed_of e data o) <= zlen data.
Definition verdaux_fits e data o := o + 8 <= zlen data /\ o + vda_next (at_ verdaux_of e data o) <= zlen data.
Definition vernaux_fits e data o := o + 16 <= zlen data /\ o + vna_next (at_ vernaux_of e data o) <= zlen data.

(** * What is written and read back *)
Record def_view := { dv_version : Z; dv_flags : Z; dv_index : Z; dv_hash : Z; dv_names : list Z }.
Record naux_view := { nv_flags : Z; nv_index : Z; nv_name : Z; nv_hash : Z }.
Record need_view := { nd_version : Z; nd_file : Z; nd_auxs : list naux_view }.
Definition def_ok (d : def_view) : Prop :=
  u16_ok (dv_version d) /\ u16_ok (dv_flags d) /\ u16_ok (dv_index d) /\ u32_ok (dv_hash d) /\
  dv_names d <> [] /\ zlen (dv_names d) < 2 ^ 16 /\ Forall u32_ok (dv_names d).
Definition naux_ok (a : naux_view) : Prop := u16_ok (nv_flags a) /\ u16_ok (nv_index a) /\ u32_ok (nv_name a) /\ u32_ok (nv_hash a).
Definition need_ok (n : need_view) : Prop :=
  u16_ok (nd_version n) /\ u32_ok (nd_file n) /\ zlen (nd_auxs n) < 2 ^ 16 /\ Forall naux_ok (nd_auxs n).

(** The calls a user makes to write a definition: [write_gnu_verdef] for the definition and its first name, then
    [write_gnu_verdaux] for the other names. *)
Fixpoint each {A B} (f : A -> B -> out A) (a : A) (l : list B) : out A :=
  match l with [] => Ok a | x :: l => a <- f a x ;; each f a l end.
Definition wverdef_of (d : def_view) : wverdef :=
  {| wd_version := dv_version d; wd_flags := dv_flags d; wd_index := dv_index d; wd_aux_count := zlen (dv_names d);
     wd_name := hd 0 (dv_names d); wd_hash := dv_hash d |}.
Definition user_def (e : endian) (w : vwriter) (d : def_view) : out vwriter :=
  w <- write_gnu_verdef e w (wverdef_of d) ;; each (write_gnu_verdaux e) w (tl (dv_names d)).
Definition wverneed_of (n : need_view) : wverneed :=
  {| wn_version := nd_version n; wn_aux_count := zlen (nd_auxs n); wn_file := nd_file n |}.
Definition wvernaux_of (a : naux_view) : wvernaux :=
  {| wa_flags := nv_flags a; wa_index := nv_index a; wa_name := nv_name a; wa_hash := nv_hash a |}.
Definition user_need (e : endian) (w : vwriter) (n : need_view) : out vwriter :=
  w <- write_gnu_verneed e w (wverneed_of n) ;; each (fun w a => write_gnu_vernaux e w (wvernaux_of a)) w (nd_auxs n).
(** The same with the encoder, giving the [next] flags explicitly. *)
Fixpoint enc_names (e : endian) (l : list Z) : bytes :=
  match l with [] => [] | n :: tl => gnu_verdaux e (match tl with [] => false | _ => true end) n ++ enc_names e tl end.
Fixpoint enc_defs (e : endian) (l : list def_view) : bytes :=
  match l with
  | [] => []
  | d :: tl => gnu_verdef e (match tl with [] => false | _ => true end) (wverdef_of d) ++ enc_names e (List.tl (dv_names d)) ++ enc_defs e tl
  end.
(** A definition returned by the reader is [d]: its fields are equal, and its auxiliary iterator yields its names. *)
Definition reads_def (e : endian) (it : verdef * aux_iter) (d : def_view) : Prop :=
  let '(vd, a) := it in
  vd_version vd = dv_version d /\ vd_flags vd = dv_flags d /\ vd_ndx vd = dv_index d /\ vd_hash vd = dv_hash d /\
  vd_cnt vd = zlen (dv_names d) /\
  exists auxs st, runs (verdaux_next e) a auxs false st /\ map vda_name auxs = dv_names d.
(** the link of each of [l] auxiliary entries: 16 bytes to the next one, 0 for the last *)
Fixpoint nlinks {A} (l : list A) : list Z := match l with [] => [] | _ :: tl => match tl with [] => 0 | _ => 16 end :: nlinks tl end.
Definition reads_need (e : endian) (it : verneed * aux_iter) (n : need_view) : Prop :=
  let '(vn, a) := it in
  vn_version vn = nd_version n /\ vn_file vn = nd_file n /\ vn_cnt vn = zlen (nd_auxs n) /\
  exists auxs st, runs (vernaux_next e) a auxs false st /\
    map (fun x => {| nv_flags := vna_flags x; nv_index := vna_other x; nv_name := vna_name x; nv_hash := vna_hash x |}) auxs = nd_auxs n /\ map vna_next auxs = nlinks (nd_auxs n).

(** * The version table *)
(** The (index, version) pairs contributed by a definition: none for a base definition, for the reserved indices
    0 and 1, or if it has no name. *)
Inductive def_entry (e : endian) (strings : Z -> out bytes) : verdef * aux_iter -> list (Z * version) -> Prop :=
| de_skip vd a : Z.odd (vd_flags vd) = true \/ vd_ndx vd < 2 -> def_entry e strings (vd, a) []
| de_none vd a : fst (verdaux_next e a) = Ok None -> def_entry e strings (vd, a) []
| de_name vd a x name : Z.odd (vd_flags vd) = false -> 2 <= vd_ndx vd -> fst (verdaux_next e a) = Ok (Some x) ->
    strings (vda_name x) = Ok name ->
    def_entry e strings (vd, a) [(vd_ndx vd, {| v_name := name; v_hash := vd_hash vd; v_valid := true; v_file := None |})].
(** The pair contributed by a needed version; bit 15 of the index (the hidden flag) is ignored. *)
Inductive naux_entry (strings : Z -> out bytes) (vn : verneed) : vernaux -> list (Z * version) -> Prop :=
| ne_skip a : vna_other a mod 2 ^ 15 < 2 -> naux_entry strings vn a []
| ne_name a name file : 2 <= vna_other a mod 2 ^ 15 -> strings (vna_name a) = Ok name -> strings (vn_file vn) = Ok file ->
    naux_entry strings vn a [(vna_other a mod 2 ^ 15, {| v_name := name; v_hash := vna_hash a; v_valid := true; v_file := Some file |})].
Definition need_entry (e : endian) (strings : Z -> out bytes) (it : verneed * aux_iter) (l : list (Z * version)) : Prop :=
  exists auxs st ls, runs (vernaux_next e) (snd it) auxs false st /\ Forall2 (naux_entry strings (fst it)) auxs ls /\ l = concat ls.
(** All the pairs, in file order: definitions first. *)
Definition opt_runs {A} (next : bytes -> out (option A) * bytes) (data : option bytes) (l : list A) : Prop :=
  match data with Some data => runs next data l false [] | None => l = [] end.
Definition table_entries (e : endian) (verdefs verneeds : option bytes) (strings : Z -> out bytes) (l : list (Z * version)) : Prop :=
  exists defs needs lds lns,
    opt_runs (verdef_next e) verdefs defs /\ opt_runs (verneed_next e) verneeds needs /\
    Forall2 (def_entry e strings) defs lds /\ Forall2 (need_entry e strings) needs lns /\ l = concat lds ++ concat lns.
(** The last pair with index [i]. *)
Fixpoint lookup_last (l : list (Z * version)) (i : Z) : option version :=
  match l with
  | [] => None
  | (j, v) :: l => match lookup_last l i with Some w => Some w | None => if j =? i then Some v else None end
  end.

(** A definition sharing the names of the next one, or a definition with its own names. *)
Definition user_item (e : endian) (w : vwriter) (it : bool * def_view) : out vwriter :=
  if fst it then write_gnu_verdef_shared e w (wverdef_of (snd it)) else user_def e w (snd it).
Fixpoint items_wf (l : list (bool * def_view)) : Prop :=
  match l with
  | [] => True
  | (false, _) :: tl => items_wf tl
  | (true, d) :: tl => match tl with
                       | (false, d') :: _ => (exists more, dv_names d ++ more = dv_names d') /\ items_wf tl
                       | _ => False
                       end
  end.
(** The number of auxiliary entries written. *)
Fixpoint own_names (l : list (bool * def_view)) : Z :=
  match l with [] => 0 | (sh, d) :: tl => (if sh : bool then 0 else zlen (dv_names d)) + own_names tl end.
Fixpoint all_auxs (l : list need_view) : Z := match l with [] => 0 | n :: tl => zlen (nd_auxs n) + all_auxs tl end.
