(** Property theorems C18, C19 (ELF symbol hash tables). *)
From Verif Require Import Hash_spec Hash_proofs.

(** * C18.  SysV hash tables *)
(** Whatever hashes the caller supplies: the table written has the announced size; when it is read back (also when
    other data follows), [symbol_table_length] is the number of symbols, and a lookup returns the greatest
    nonzero symbol index, among the symbols hashed into the bucket of [h], with the requested name and version;
    and nothing if there is none. *)
Theorem C18_written_found : forall e B N hash, 0 < B < 2 ^ 32 -> 0 <= N < 2 ^ 32 ->
  exists tab, hash_table e B N hash = Ok tab /\ zlen tab = hash_size B N /\
  forall rest, exists t, ht_parse e (tab ++ rest) = Ok t /\ ht_symbol_table_length t = N /\
  forall nm vm name h, 0 <= h -> exists r, ht_find t nm vm name h = Ok r /\
    greatest_such (fun j => sysv_member hash B N h j /\ sym_matches nm vm name j) r.
Proof. exact sysv_written. Qed.
Print Assumptions C18_written_found.

(** With the ELF hash function of the names, every hashed symbol other than symbol 0 is found by its name. *)
Theorem C18_by_name : forall e B (names : list bytes) (hashed : Z -> bool), 0 < B < 2 ^ 32 -> zlen names < 2 ^ 32 ->
  exists tab, hash_table e B (zlen names) (fun j => if hashed j then option_map elf_hash (zget names j) else None) = Ok tab /\
  forall rest, exists t, ht_parse e (tab ++ rest) = Ok t /\
  forall vm name, exists r, ht_find t (map Ok names) vm name (elf_hash name) = Ok r /\
    greatest_such (fun j => 0 < j /\ hashed j = true /\ zget names j = Some name /\ vm j = true) r.
Proof. exact sysv_by_name. Qed.
Print Assumptions C18_by_name.

(** On arbitrary data: no panic, termination (the model is total) and only true answers, whatever the buckets
    and chains (cyclic, out of range, ...). *)
Theorem C18_parse_no_panic : forall e data, ht_parse e data <> Panic.
Proof. exact sysv_parse_no_panic. Qed.
Print Assumptions C18_parse_no_panic.
Theorem C18_sound : forall t nm vm name h, 0 <= h -> exists r, ht_find t nm vm name h = Ok r /\
  forall j, r = Some j -> j <> 0 /\ sym_matches nm vm name j.
Proof. exact sysv_sound. Qed.
Print Assumptions C18_sound.

Definition ex_names : list bytes := [[]; [102;111;111]; [98;97;114]; [102;111;111]; [113]].
Example C18_ex :
  match hash_table Little 2 5 (fun j => if 0 <? j then option_map elf_hash (zget ex_names j) else None) with
  | Ok tab =>
    match ht_parse Little tab with
    | Ok t => ht_find t (map Ok ex_names) (fun _ => true) [102;111;111] (elf_hash [102;111;111]) = Ok (Some 3) /\
              ht_find t (map Ok ex_names) (fun j => j <? 3) [102;111;111] (elf_hash [102;111;111]) = Ok (Some 1) /\
              ht_find t (map Ok ex_names) (fun _ => true) [120] (elf_hash [120]) = Ok None
    | _ => False
    end
  | _ => False
  end.
Proof. ex. Qed.
(** a cyclic chain *)
Example C18_ex_cycle : ht_find ([1], [0; 2; 1]) (map Ok ex_names) (fun _ => true) [120] 0 = Ok None.
Proof. ex. Qed.

(** * C19.  GNU hash tables *)
(** Whatever hashes the caller supplies, provided that the symbols are sorted by bucket (which the writer
    documents as a requirement), that there is at least one bucket and bloom word, and that the table starts at a
    nonzero symbol. *)
Theorem C19_written_found : forall is64 e d hash, gnu_ok d hash ->
  exists tab, gnu_hash_table is64 e d hash = Ok tab /\
  zlen tab = gnu_hash_size is64 (gd_bloom_count d) (gd_bucket_count d) (gd_symbol_count d) /\
  forall rest, zlen (tab ++ rest) < 2 ^ 64 -> exists t, gt_parse (if is64 then 8 else 4) e (tab ++ rest) = Ok t /\
  forall nm vm name h, u32_ok h ->
    (forall j, gd_symbol_base d <= j < gd_symbol_base d + gd_symbol_count d -> sym_matches nm vm name j -> hash (j - gd_symbol_base d) = h) ->
    exists r, gt_find (if is64 then 8 else 4) e t nm vm name h = Ok r /\
    least_such (fun j => gd_symbol_base d <= j < gd_symbol_base d + gd_symbol_count d /\ sym_matches nm vm name j) r.
Proof. exact gnu_written. Qed.
Print Assumptions C19_written_found.

(** With the GNU hash function of the names: symbols [unhashed] first, then [names] in the table. *)
Theorem C19_by_name : forall is64 e d (unhashed names : list bytes),
  gd_symbol_base d = zlen unhashed -> gd_symbol_count d = zlen names ->
  let hash i := match zget names i with Some n => gnu_hash n | None => 0 end in
  gnu_ok d hash ->
  exists tab, gnu_hash_table is64 e d hash = Ok tab /\
  forall rest, zlen (tab ++ rest) < 2 ^ 64 -> exists t, gt_parse (if is64 then 8 else 4) e (tab ++ rest) = Ok t /\
  forall vm name, exists r, gt_find (if is64 then 8 else 4) e t (map Ok (unhashed ++ names)) vm name (gnu_hash name) = Ok r /\
    least_such (fun j => zlen unhashed <= j /\ zget (unhashed ++ names) j = Some name /\ vm j = true) r.
Proof. exact gnu_by_name. Qed.
Print Assumptions C19_by_name.

(** The number of symbols is recovered (None for an empty table). *)
Theorem C19_symbol_table_length : forall is64 e d hash tab rest t, gnu_ok d hash ->
  gnu_hash_table is64 e d hash = Ok tab -> zlen (tab ++ rest) < 2 ^ 64 ->
  gt_parse (if is64 then 8 else 4) e (tab ++ rest) = Ok t ->
  gt_symbol_table_length t = Ok (if gd_symbol_count d =? 0 then None else Some (gd_symbol_base d + gd_symbol_count d)).
Proof. exact gnu_length_written. Qed.
Print Assumptions C19_symbol_table_length.

(** Arbitrary data: parsing never panics, a lookup never panics and is sound provided the file's bloom shift is
    below 32; the length computation cannot panic for data below 16 GiB. *)
Theorem C19_parse_no_panic : forall ws e data, ws = 4 \/ ws = 8 -> bytes_ok data -> zlen data < 2 ^ 64 -> gt_parse ws e data <> Panic.
Proof. exact gt_parse_no_panic. Qed.
Print Assumptions C19_parse_no_panic.
Theorem C19_sound : forall ws e data t nm vm name h, ws = 4 \/ ws = 8 -> bytes_ok data -> zlen data < 2 ^ 64 ->
  gt_parse ws e data = Ok t -> u32_ok h -> gt_bloom_shift t < 32 ->
  exists r, gt_find ws e t nm vm name h = Ok r /\ forall j, r = Some j -> 0 < j /\ sym_matches nm vm name j.
Proof. exact gnu_sound. Qed.
Print Assumptions C19_sound.
Theorem C19_length_no_panic : forall ws e data t, ws = 4 \/ ws = 8 -> bytes_ok data -> zlen data < 2 ^ 34 ->
  gt_parse ws e data = Ok t -> gt_symbol_table_length t <> Panic.
Proof. exact gnu_length_no_panic. Qed.
Print Assumptions C19_length_no_panic.

(** FINDING: a file with a bloom shift of 32 or more makes [find] panic in debug builds ([hash >> bloom_shift],
    src/read/elf/hash.rs 217; release builds mask the shift). *)
Definition bad_shift : bytes :=
  words Little [1; 1; 1; 32] ++ [255;255;255;255;255;255;255;255] ++ words Little [1; 1].
Theorem C19_shift_panic_refuted : bytes_ok bad_shift /\
  match gt_parse 8 Little bad_shift with
  | Ok t => gt_find 8 Little t [Ok []; Ok [102]] (fun _ => true) [102] (gnu_hash [102]) = Panic
  | _ => False
  end.
Proof. split; [apply bytes_ok_forallb; vm_compute; reflexivity|vm_compute; reflexivity]. Qed.
Print Assumptions C19_shift_panic_refuted.
(** The nonzero symbol base is necessary: with base 0 the first bucket's first symbol cannot be told from an
    empty bucket, so that bucket is not searched. *)
Theorem C19_zero_base_refuted :
  match gnu_hash_table true Little {| gd_bucket_count := 1; gd_bloom_count := 1; gd_bloom_shift := 0; gd_symbol_base := 0; gd_symbol_count := 2 |} (fun _ => 7) with
  | Ok tab => match gt_parse 8 Little tab with
    | Ok t => gt_find 8 Little t [Ok [97]; Ok [98]] (fun _ => true) [98] 7 = Ok None
    | _ => False end
  | _ => False end.
Proof. vm_compute. reflexivity. Qed.

Definition ex_desc := {| gd_bucket_count := 3; gd_bloom_count := 2; gd_bloom_shift := 6; gd_symbol_base := 1; gd_symbol_count := 4 |}.
Definition ex_gnames : list bytes := [[99]; [97]; [100]; [98]].
Definition ex_ghash i := match zget ex_gnames i with Some n => gnu_hash n | None => 0 end.
Example C19_ex_hyp : gnu_ok ex_desc ex_ghash.
Proof.
  assert (H : forall i, 0 <= i < 4 -> i = 0 \/ i = 1 \/ i = 2 \/ i = 3) by lia.
  constructor; cbn [ex_desc gd_bucket_count gd_bloom_count gd_bloom_shift gd_symbol_base gd_symbol_count]; try lia.
  - intros i Hi. destruct (H i Hi) as [->|[->|[->| ->]]]; vm_compute; split; congruence.
  - intros i j Hi Hj. destruct (H i ltac:(lia)) as [->|[->|[->| ->]]]; destruct (H j ltac:(lia)) as [->|[->|[->| ->]]];
      try lia; vm_compute; congruence.
Qed.
Example C19_ex :
  match gnu_hash_table false Big ex_desc ex_ghash with
  | Ok tab => match gt_parse 4 Big (tab ++ [1;2;3]) with
    | Ok t => gt_find 4 Big t (map Ok ([[]] ++ ex_gnames)) (fun _ => true) [100] (gnu_hash [100]) = Ok (Some 3) /\
              gt_find 4 Big t (map Ok ([[]] ++ ex_gnames)) (fun _ => true) [122] (gnu_hash [122]) = Ok None /\
              gt_symbol_table_length t = Ok (Some 5)
    | _ => False end
  | _ => False end.
Proof. ex. Qed.
