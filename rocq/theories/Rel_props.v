(** Property theorems C20, C21 (RELR and CREL relocations). *)
From Verif Require Import Rel_spec Rel_proofs.

(** * C20.  RELR *)
(** For every word size and every sequence of words, calling [next] until it returns [None] yields exactly the
    addresses denoted by the encoding, in order; and [next] keeps returning [None]. *)
Theorem C20_relr_decodes : forall w words, w = 4 \/ w = 8 -> Forall (fun x => 0 <= x < 2 ^ (8 * w)) words ->
  exists it', runs (relr_next w) (relr_new words) (relr_decode w 0 words) false it' /\
              exists it'', relr_next w it' = (Ok None, it'').
Proof. exact relr_correct. Qed.
Print Assumptions C20_relr_decodes.
(** The sequence of results is a function of the iterator (so the run above is the only one). *)
Theorem C20_run_unique : forall w it l e it1, runs (relr_next w) it l e it1 ->
  forall l' e' it1', runs (relr_next w) it l' e' it1' -> l = l' /\ e = e' /\ it1 = it1'.
Proof. exact (fun w => runs_det (relr_next w)). Qed.
Print Assumptions C20_run_unique.

(** The bitmap's addresses may wrap around the address space (the unit test in the crate). *)
Example C20_ex : relr_decode 4 0 [4294967292; 7] = [4294967292; 0; 4] /\
  relr_decode 8 0 [4096; 5; 8192; 3; 3] = [4096; 4112; 8192; 8200; 8704] /\
  fst (relr_next 8 (relr_new [4096; 5])) = Ok (Some 4096) /\
  Forall (fun x => 0 <= x < 2 ^ (8 * 4)) [4294967292; 7].
Proof. ex. Qed.

(** * C21.  CREL *)
(** A well-formed stream (header, entries, anything after it) is decoded to exactly its entries. *)
Theorem C21_crel_decodes : forall henc count rela shift b l rest, bytes_ok (b ++ rest) -> crel_header henc count rela shift ->
  crel_entries rela shift crel_default b l -> count = zlen l ->
  exists it, crel_new (henc ++ b ++ rest) = Ok it /\ crel_len it = zlen l /\ ci_is_rela it = rela /\
  exists it', runs crel_next it l false it'.
Proof. exact crel_decodes. Qed.
Print Assumptions C21_crel_decodes.
(** Arbitrary data: construction does not panic; iteration ends without panic after at most the announced number
    of entries; what was yielded is the decoding of a prefix of the stream; it ends with an error exactly when no
    entry can be decoded where it stopped; afterwards [next] returns [None]. *)
Theorem C21_crel_total : forall data, bytes_ok data ->
  crel_new data <> Panic /\
  forall it, crel_new data = Ok it -> exists henc, crel_header henc (crel_len it) (ci_is_rela it) (ci_shift it) /\
  exists l e it' b rest, runs crel_next it l e it' /\ data = henc ++ b ++ rest /\
    crel_entries (ci_is_rela it) (ci_shift it) crel_default b l /\ zlen l <= crel_len it /\
    (e = false -> zlen l = crel_len it) /\
    (e = true -> zlen l < crel_len it /\ forall x tl c, rest = x ++ tl -> ~ crel_entry (ci_is_rela it) (ci_shift it) (last l crel_default) x c) /\
    crel_next it' = (Ok None, it').
Proof. exact crel_total. Qed.
Print Assumptions C21_crel_total.

(** header: 2 entries with addends, shift 1; entry 1: flags 7, delta 1, sym +1, type +2, addend -4;
    entry 2: flags 2 (type only), delta 20 (two bytes), type -1. *)
Definition ex_crel : bytes := [21;  15; 1; 2; 124;  162; 1; 127].
Example C21_ex :
  match crel_new ex_crel with
  | Ok it => crel_len it = 2 /\ ci_is_rela it = true /\
    let '(r1, it1) := crel_next it in
    r1 = Ok (Some {| cr_offset := 2; cr_sym := 1; cr_type := 2; cr_addend := -4 |}) /\
    let '(r2, it2) := crel_next it1 in
    r2 = Ok (Some {| cr_offset := 42; cr_sym := 1; cr_type := 1; cr_addend := -4 |}) /\
    fst (crel_next it2) = Ok None
  | _ => False
  end.
Proof. vm_compute. repeat split. Qed.
Example C21_ex_hyps : bytes_ok ex_crel /\ crel_header [21] 2 true 1 /\
  crel_entry true 1 crel_default [15; 1; 2; 124] {| cr_offset := 2; cr_sym := 1; cr_type := 2; cr_addend := -4 |}.
Proof.
  split; [apply bytes_ok_forallb; vm_compute; reflexivity|]. split.
  - unfold crel_header. split; [lia|]. split; [lia|]. split; [apply uleb_last; lia|]. split; [vm_compute; congruence|lia].
  - exists [15], 15, [1], 1, [2], 2, [124], (-4). split; [reflexivity|].
    split; [apply uleb_last; lia|]. split; [vm_compute; congruence|]. split; [vm_compute; reflexivity|].
    split; [split; [apply (sleb_last 1); lia|split; [vm_compute; congruence|lia]]|].
    split; [split; [apply (sleb_last 2); lia|split; [vm_compute; congruence|lia]]|].
    split; [split; [apply (sleb_last 124); lia|split; [vm_compute; congruence|lia]]|].
    repeat split.
Qed.
