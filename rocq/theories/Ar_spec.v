(** Specification of the archive formats, independent of the reader. *)
From Verif Require Export Ar_model File_spec Iter_spec.

(** A file that fits in memory. *)
Definition file_ok (F : bytes) : Prop := bytes_ok F /\ zlen F < 2 ^ 63.

(** [number zero space radix f n]: the field [f] holds the number [n], written with at least one digit in [radix]
    ([zero] is the character of the digit 0) and followed by nothing or by a space and anything. *)
Definition value (radix : Z) (ds : list Z) : Z := fold_left (fun n d => n * radix + d) ds 0.
Definition number (zero space radix : Z) (f : bytes) (n : Z) : Prop :=
  exists ds pad, f = map (fun d => zero + d) ds ++ pad /\ ds <> [] /\ Forall (fun d => 0 <= d < radix) ds /\
    (pad = [] \/ exists tl, pad = space :: tl) /\ n = value radix ds /\ n < 2 ^ 64.
Definition ascii_number := number 48 32.
Definition ebcdic_number := number 240 64.

(** [until stop b name]: [name] is the part of [b] before the first [stop], or all of [b] *)
Definition until (stop : Z) (b name : bytes) : Prop :=
  ~ In stop name /\ (name = b \/ exists tl, b = name ++ stop :: tl).

(** The five ways of storing a name (and the start of the data) in a member header of the common format.
    [nf] is the name field, [off] the offset after the header, [sz] the size in the header:
    [name_of F names nf off sz name doff dsz] says that the name is [name], and that the data are the [dsz] bytes at [doff]. *)
Definition digit_at (nf : bytes) (i : Z) : Prop := exists d, zget nf i = Some d /\ 48 <= d <= 57.
Inductive name_of (F names nf : bytes) (off sz : Z) : bytes -> Z -> Z -> Prop :=
(** "/123": the name is at this offset of the names table, and ends with "/\n" (GNU) or a null byte (COFF) *)
| nm_table ds k name fin : nf = 47 :: ds -> digit_at nf 1 -> ascii_number 10 ds k ->
    holds names k (name ++ fin) -> fin = [47; 10] \/ fin = [0] -> ~ In 10 name -> ~ In 0 name ->
    name_of F names nf off sz name off sz
(** "#1/12": the name is in the first 12 bytes of the data (padded with null bytes) *)
| nm_bsd ds n raw name : nf = 35 :: 49 :: 47 :: ds -> digit_at nf 3 -> ascii_number 10 ds n ->
    n <= sz -> holds F off raw -> zlen raw = n -> until 0 raw name ->
    name_of F names nf off sz name (off + n) (sz - n)
(** special name: "/", "//", "/SYM64/"... *)
| nm_special tl name : nf = 47 :: tl -> ~ digit_at nf 1 -> until 32 nf name ->
    name_of F names nf off sz name off sz
(** "name/" (GNU) *)
| nm_slash name tl : nf = name ++ 47 :: tl -> name <> [] -> ~ In 47 name -> ~ (name = [35; 49] /\ digit_at nf 3) ->
    name_of F names nf off sz name off sz
(** "name " (BSD) *)
| nm_space name : ~ In 47 nf -> until 32 nf name ->
    name_of F names nf off sz name off sz.

(** Members without data in a thin archive *)
Definition special (name : bytes) : Prop := name = N_slash \/ name = N_names \/ name = N_sym64.

(** There is a member at offset [off] of [F], read as [m]; the next member, if any, is at [next]. *)
Inductive member_at (F names : bytes) (thin : bool) (off : Z) (m : member) (next : Z) : Prop :=
| member_at_intro h sz doff :
    holds F off h -> zlen h = 60 -> ah_terminator h = AR_TERMINATOR -> ascii_number 10 (ah_size h) sz ->
    name_of F names (ah_name h) (off + 60) sz (mb_name m) doff (mb_size m) ->
    mb_header m = HCommon h ->
    (if thin then (special (mb_name m) /\ mb_offset m = doff /\ next = off + 60 + sz + sz mod 2) \/
                  (~ special (mb_name m) /\ mb_offset m = 0 /\ next = off + 60)
     else mb_offset m = doff /\ next = off + 60 + sz + sz mod 2) ->
    member_at F names thin off m next.

(** The members from offset [off] on, up to the end of the file or (if [bad]) something that is not a member *)
Inductive members_from (F names : bytes) (thin : bool) : Z -> list member -> bool -> Prop :=
| mf_end off : zlen F <= off -> members_from F names thin off [] false
| mf_bad off : off < zlen F -> (forall m next, ~ member_at F names thin off m next) -> members_from F names thin off [] true
| mf_cons off m next l bad : off < zlen F -> member_at F names thin off m next -> members_from F names thin next l bad ->
    members_from F names thin off (m :: l) bad.

(** The special members at the start of an archive.  [nothing_at off name]: no member follows, or a member that is not
    called [name] follows. *)
Definition next_not (F names : bytes) (thin : bool) (off : Z) (l : list bytes) : Prop :=
  zlen F <= off \/ exists m next, off < zlen F /\ member_at F names thin off m next /\ ~ In (mb_name m) l.
Definition named_at (F names : bytes) (thin : bool) (off : Z) (name : bytes) (m : member) (next : Z) : Prop :=
  off < zlen F /\ member_at F names thin off m next /\ mb_name m = name.
(** The contents of a member *)
Definition contents (F : bytes) (m : member) (d : bytes) : Prop := holds F (mb_offset m) d /\ zlen d = mb_size m.
(** [front F thin k syms names off]: an archive of kind [k], with the symbol table in member [syms], the names table [names],
    and whose first ordinary member is at [off]. *)
Inductive front (F : bytes) (thin : bool) : akind -> option member -> bytes -> Z -> Prop :=
| fr_plain : next_not F [] thin 8 [N_slash; N_names; N_sym64; N_symdef; N_symdef_sorted; N_symdef_64; N_symdef_64_sorted] ->
    front F thin AKUnknown None [] 8
| fr_names m n1 names : named_at F [] thin 8 N_names m n1 -> contents F m names -> front F thin AKGnu None names n1
| fr_gnu m n1 : named_at F [] thin 8 N_slash m n1 -> next_not F [] thin n1 [N_names; N_slash] ->
    front F thin AKGnu (Some m) [] n1
| fr_gnu_names m n1 m2 n2 names : named_at F [] thin 8 N_slash m n1 -> named_at F [] thin n1 N_names m2 n2 ->
    contents F m2 names -> front F thin AKGnu (Some m) names n2
| fr_gnu64 m n1 : named_at F [] thin 8 N_sym64 m n1 -> next_not F [] thin n1 [N_names] ->
    front F thin AKGnu64 (Some m) [] n1
| fr_gnu64_names m n1 m2 n2 names : named_at F [] thin 8 N_sym64 m n1 -> named_at F [] thin n1 N_names m2 n2 ->
    contents F m2 names -> front F thin AKGnu64 (Some m) names n2
| fr_bsd m n1 nm : named_at F [] thin 8 nm m n1 -> nm = N_symdef \/ nm = N_symdef_sorted -> front F thin AKBsd (Some m) [] n1
| fr_bsd64 m n1 nm : named_at F [] thin 8 nm m n1 -> nm = N_symdef_64 \/ nm = N_symdef_64_sorted -> front F thin AKBsd64 (Some m) [] n1
| fr_coff m1 n1 m2 n2 names n3 n4 :
    named_at F [] thin 8 N_slash m1 n1 -> named_at F [] thin n1 N_slash m2 n2 ->
    ((names = [] /\ n3 = n2 /\ next_not F [] thin n2 [N_names]) \/
     (exists m3, named_at F [] thin n2 N_names m3 n3 /\ contents F m3 names)) ->
    ((n4 = n3 /\ next_not F names thin n3 [N_ec]) \/ (exists m4, named_at F names thin n3 N_ec m4 n4)) ->
    front F thin AKCoff (Some m2) names n4.

(** What the reader should return for an archive of the common format *)
Definition common_archive (F : bytes) (a : archive) : Prop :=
  ar_data a = F /\ holds F 0 (if ar_thin a then AR_THIN_MAGIC else AR_MAGIC) /\
  exists syms off, front F (ar_thin a) (ar_kind a) syms (ar_names a) off /\
    ar_symbols a = match syms with Some m => (mb_offset m, mb_size m) | None => (0, 0) end /\
    ar_members a = MCommon off (zlen F).

(** z/OS: the same header, in EBCDIC, with the name in the name field, or ("#1/12" in EBCDIC) in front of the data *)
Definition ebcdic_digit_at (nf : bytes) (i : Z) : Prop := exists d, zget nf i = Some d /\ 240 <= d <= 249.
Inductive zos_name_of (F nf : bytes) (off sz : Z) : bytes -> Z -> Z -> Prop :=
| zn_bsd ds n raw name : nf = 123 :: 241 :: 97 :: ds -> ebcdic_digit_at nf 3 -> ebcdic_number 10 ds n ->
    n <= sz -> holds F off raw -> zlen raw = n -> until 0 raw name ->
    zos_name_of F nf off sz name (off + n) (sz - n)
| zn_field name : ~ ((exists ds, nf = 123 :: 241 :: 97 :: ds) /\ ebcdic_digit_at nf 3) -> until 64 nf name ->
    zos_name_of F nf off sz name off sz.
Inductive zos_member_at (F : bytes) (off : Z) (m : member) (next : Z) : Prop :=
| zos_member_at_intro h sz :
    holds F off h -> zlen h = 60 -> ah_terminator h = AR_ZOS_TERMINATOR -> ebcdic_number 10 (ah_size h) sz ->
    zos_name_of F (ah_name h) (off + 60) sz (mb_name m) (mb_offset m) (mb_size m) ->
    mb_header m = HZos h -> next = off + 60 + sz + sz mod 2 ->
    zos_member_at F off m next.
Inductive zos_members_from (F : bytes) : Z -> list member -> bool -> Prop :=
| zf_end off : zlen F <= off -> zos_members_from F off [] false
| zf_bad off : off < zlen F -> (forall m next, ~ zos_member_at F off m next) -> zos_members_from F off [] true
| zf_cons off m next l bad : off < zlen F -> zos_member_at F off m next -> zos_members_from F next l bad ->
    zos_members_from F off (m :: l) bad.
Definition zos_archive (F : bytes) (a : archive) : Prop :=
  ar_data a = F /\ ar_kind a = AKZos /\ ar_names a = [] /\ ar_thin a = false /\ holds F 0 AR_ZOS_MAGIC /\
  ((exists m next, 8 < zlen F /\ zos_member_at F 8 m next /\ mb_name m = N_symdef_ebcdic /\
      ar_symbols a = (mb_offset m, mb_size m) /\ ar_members a = MZos next (zlen F)) \/
   ((zlen F <= 8 \/ exists m next, zos_member_at F 8 m next /\ mb_name m <> N_symdef_ebcdic) /\
      ar_symbols a = (0, 0) /\ ar_members a = MZos 8 (zlen F))).

(** AIX big archives: the name follows the header, padded to an even offset, then the terminator, then the data. *)
Inductive aix_member_at (F : bytes) (off : Z) (m : member) : Prop :=
| aix_member_at_intro h n pos :
    holds F off h -> zlen h = 112 -> ascii_number 10 (xh_namlen h) n ->
    holds F (off + 112) (mb_name m) -> zlen (mb_name m) = n ->
    pos = off + 112 + n + (off + 112 + n) mod 2 -> holds F pos AR_TERMINATOR ->
    ascii_number 10 (xh_size h) (mb_size m) -> mb_offset m = pos + 2 -> mb_header m = HAix h ->
    aix_member_at F off m.
(** The member index holds the number of members and the offset of each, 20 characters each. *)
Definition aix_index (d : bytes) (index : list bytes) : Prop :=
  exists c n tl, d = c ++ concat index ++ tl /\ zlen c = 20 /\ ascii_number 10 c n /\ zlen index = n /\
    Forall (fun x => zlen x = 20) index.
Definition aix_archive (F : bytes) (a : archive) : Prop :=
  ar_data a = F /\ ar_kind a = AKAixBig /\ ar_names a = [] /\ ar_thin a = false /\
  exists fh, holds F 0 fh /\ zlen fh = 128 /\ holds fh 0 AR_AIX_BIG_MAGIC /\
  (exists g64, ascii_number 10 (xf_gst64off fh) g64 /\
     if 0 <? g64 then exists m, aix_member_at F g64 m /\ ar_symbols a = (mb_offset m, mb_size m)
     else exists g, ascii_number 10 (xf_gstoff fh) g /\
       if 0 <? g then exists m, aix_member_at F g m /\ ar_symbols a = (mb_offset m, mb_size m) else ar_symbols a = (0, 0)) /\
  (exists mo, ascii_number 10 (xf_memoff fh) mo /\
     if mo =? 0 then ar_members a = MAix []
     else exists m d index, aix_member_at F mo m /\ contents F m d /\ aix_index d index /\ ar_members a = MAix index).
(** The members given by an index, up to its end or (if [bad]) an entry that does not lead to a member *)
Inductive aix_members (F : bytes) : list bytes -> list member -> bool -> Prop :=
| xm_end : aix_members F [] [] false
| xm_bad x l : (forall off m, ascii_number 10 x off -> ~ aix_member_at F off m) -> aix_members F (x :: l) [] true
| xm_cons x off m l ms bad : ascii_number 10 x off -> aix_member_at F off m -> aix_members F l ms bad ->
    aix_members F (x :: l) (m :: ms) bad.

(** * What the archivers write *)
(** Digits without leading zeros, for numbers below radix ^ n *)
Fixpoint digits (radix : Z) (n : nat) (v : Z) : bytes :=
  match n with
  | O => []
  | S k => (if v <? radix then [] else digits radix k (v / radix)) ++ [48 + v mod radix]
  end.
Definition decimal := digits 10.
Definition octal := digits 8.
Definition pad_to (n : Z) (b : bytes) : bytes := b ++ repeat 32 (Z.to_nat (n - zlen b)).
Record stamp := { st_date : Z; st_uid : Z; st_gid : Z; st_mode : Z }.
Definition enc_header (nf : bytes) (s : stamp) (sz : Z) : bytes :=
  pad_to 16 nf ++ pad_to 12 (decimal 12 (st_date s)) ++ pad_to 6 (decimal 6 (st_uid s)) ++ pad_to 6 (decimal 6 (st_gid s)) ++
  pad_to 8 (octal 8 (st_mode s)) ++ pad_to 10 (decimal 10 sz) ++ AR_TERMINATOR.
Definition even_pad (sz : Z) : bytes := if sz mod 2 =? 0 then [] else [10].
Definition enc_member (nf : bytes) (s : stamp) (d : bytes) : bytes := enc_header nf s (zlen d) ++ d ++ even_pad (zlen d).
Record entry := { en_name : bytes; en_stamp : stamp; en_data : bytes }.
Definition stamp_ok (s : stamp) : Prop :=
  0 <= st_date s < 10 ^ 12 /\ 0 <= st_uid s < 10 ^ 6 /\ 0 <= st_gid s < 10 ^ 6 /\ 0 <= st_mode s < 8 ^ 8.
(** GNU: "name/" if it fits, otherwise an offset in the names table, where it is followed by "/\n" *)
Definition gnu_short (name : bytes) : bool := zlen name <=? 15.
Definition gnu_names (l : list entry) : bytes :=
  concat (map (fun e => if gnu_short (en_name e) then [] else en_name e ++ [47; 10]) l).
Fixpoint gnu_members (k : Z) (l : list entry) : bytes :=
  match l with
  | [] => []
  | e :: tl =>
    if gnu_short (en_name e) then enc_member (en_name e ++ [47]) (en_stamp e) (en_data e) ++ gnu_members k tl
    else enc_member (47 :: decimal 15 k) (en_stamp e) (en_data e) ++ gnu_members (k + zlen (en_name e) + 2) tl
  end.
Definition no_stamp : stamp := {| st_date := 0; st_uid := 0; st_gid := 0; st_mode := 0 |}.
Definition gnu_archive (symtab : bytes) (l : list entry) : bytes :=
  AR_MAGIC ++ enc_member [47] no_stamp symtab ++ enc_member [47; 47] no_stamp (gnu_names l) ++ gnu_members 0 l.
(** BSD: "#1/length", with the name in front of the data *)
Definition bsd_member (name : bytes) (s : stamp) (d : bytes) : bytes :=
  enc_member ([35; 49; 47] ++ decimal 13 (zlen name)) s (name ++ d).
Definition bsd_archive (symtab : bytes) (l : list entry) : bytes :=
  AR_MAGIC ++ bsd_member N_symdef no_stamp symtab ++ concat (map (fun e => bsd_member (en_name e) (en_stamp e) (en_data e)) l).
Definition entry_ok (e : entry) : Prop :=
  en_name e <> [] /\ ~ In 47 (en_name e) /\ ~ In 10 (en_name e) /\ ~ In 0 (en_name e) /\ stamp_ok (en_stamp e) /\
  zlen (en_name e) + zlen (en_data e) < 10 ^ 10.
(** [m] is read from [F] as the entry [e] *)
Definition is_entry (F : bytes) (m : member) (e : entry) : Prop :=
  mb_name m = en_name e /\ mb_size m = zlen (en_data e) /\ mb_data F m = Ok (en_data e) /\
  mb_date m = Some (st_date (en_stamp e)) /\ mb_uid m = Some (st_uid (en_stamp e)) /\ mb_gid m = Some (st_gid (en_stamp e)) /\
  mb_mode m = Some (st_mode (en_stamp e)).

(** * Symbol tables *)
(** The results of an iterator that goes on after an error ([None]) *)
Inductive results {S A} (next : S -> out (option A) * S) : S -> list (option A) -> Prop :=
| res_end st st' : next st = (Ok None, st') -> results next st []
| res_ok st x st' l : next st = (Ok (Some x), st') -> results next st' l -> results next st (Some x :: l)
| res_err st st' l : next st = (Err, st') -> results next st' l -> results next st (None :: l).
(** The names are null terminated strings one after the other: string number [i] *)
Definition nth_string (names : bytes) (i : Z) (name : bytes) : Prop :=
  exists strs tl, names = concat (map (fun s => s ++ [0]) strs) ++ tl /\ Forall (fun s => ~ In 0 s) strs /\ zget strs i = Some name.
(** [table F k off size n sym]: the [size] bytes at [off] are a symbol table of kind [k] with [n] entries, and [sym i name o] says
    that entry [i] has name [name] and member offset [o].  [w] bytes per number. *)
Definition sym_table (T : bytes) (k : akind) (n : Z) (sym : Z -> bytes -> Z -> Prop) : Prop :=
  match k with
  | AKGnu | AKGnu64 =>
    let w := match k with AKGnu => 4%nat | _ => 8%nat end in
    exists offs names, T = write_u Big w n ++ concat (map (write_u Big w) offs) ++ names /\ zlen offs = n /\ n < 2 ^ (8 * Z.of_nat w) /\
      Forall (fun o => 0 <= o < 2 ^ (8 * Z.of_nat w)) offs /\
      (forall i name o, sym i name o <-> zget offs i = Some o /\ nth_string names i name)
  | AKBsd | AKBsd64 =>
    let w := match k with AKBsd => 4%nat | _ => 8%nat end in
    exists ents size names tl, T = write_u Little w size ++ concat (map (fun '(s, o) => write_u Little w s ++ write_u Little w o) ents) ++
      write_u Little w (zlen names) ++ names ++ tl /\
      zlen ents = n /\ size / (2 * Z.of_nat w) = n /\ 0 <= size < 2 ^ (8 * Z.of_nat w) /\ zlen names < 2 ^ (8 * Z.of_nat w) /\
      Forall (fun '(s, o) => 0 <= s < 2 ^ (8 * Z.of_nat w) /\ 0 <= o < 2 ^ (8 * Z.of_nat w)) ents /\
      (forall i name o, sym i name o <-> exists s, zget ents i = Some (s, o) /\ string_at names s name)
  | AKCoff =>
    exists offs idx names, T = write_u Little 4 (zlen offs) ++ concat (map (write_u Little 4) offs) ++
      write_u Little 4 n ++ concat (map (write_u Little 2) idx) ++ names /\
      zlen idx = n /\ n < 2 ^ 32 /\ zlen offs < 2 ^ 32 /\ Forall (fun o => 0 <= o < 2 ^ 32) offs /\ Forall (fun i => 0 <= i < 2 ^ 16) idx /\
      (forall i name o, sym i name o <-> exists j, zget idx i = Some j /\ zget offs ((j - 1) mod 2 ^ 16) = Some o /\ nth_string names i name)
  | AKUnknown | AKAixBig | AKZos => n = 0 /\ forall i name o, ~ sym i name o
  end.
(** An iterator that returns [n] results, of which number [i] is the symbol given by [sym], or an error if there is none *)
Definition yields (it : symiter) (n : Z) (sym : Z -> bytes -> Z -> Prop) : Prop :=
  symiter_size_hint it = (n, match it with SNone => None | _ => Some n end) /\
  exists res, results symiter_next it res /\ zlen res = n /\
    forall i name o, zget res i = Some (Some {| as_name := name; as_offset := o |}) <-> sym i name o.

(** * Whole archives *)
(** [archive_of F a]: [a] is the right description of the file [F] *)
Definition archive_of (F : bytes) (a : archive) : Prop := common_archive F a \/ zos_archive F a \/ aix_archive F a.
(** The member at an offset, for every kind of archive; the offset must not be before the first member *)
Definition member_of (F : bytes) (a : archive) (off : Z) (m : member) : Prop :=
  match ar_members a with
  | MCommon first _ => first <= off < zlen F /\ exists next, member_at F (ar_names a) (ar_thin a) off m next
  | MZos first _ => first <= off < zlen F /\ exists next, zos_member_at F off m next
  | MAix _ => aix_member_at F off m
  end.
(** All the members ([bad]: the last one is followed by something that is not a member) *)
Definition listing (F : bytes) (a : archive) (l : list member) (bad : bool) : Prop :=
  match ar_members a with
  | MCommon first _ => members_from F (ar_names a) (ar_thin a) first l bad
  | MZos first _ => zos_members_from F first l bad
  | MAix index => aix_members F index l bad
  end.
(** A number in the header of a member: the offset and length of the field in the common header, and in the AIX header *)
Definition attr (m : member) (radix : Z) (common aix : Z * Z) (v : Z) : Prop :=
  match mb_header m with
  | HCommon h => ascii_number radix (zslice (fst common) (snd common) h) v
  | HAix h => ascii_number radix (zslice (fst aix) (snd aix) h) v
  | HZos h => ebcdic_number radix (zslice (fst common) (snd common) h) v
  end.
