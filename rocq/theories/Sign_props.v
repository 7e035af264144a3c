(** Mach-O code signatures: theorems. *)
From Verif Require Import Core_proofs File_proofs ArSym_proofs Sign_proofs.
From Verif Require Import Sign_spec.

(** * C82: the super blob and its blobs *)
(** Parsing succeeds exactly on super blobs and shows their index. *)
Theorem C82_super_blob F index : bytes_ok F ->
  (exists s, csig_parse F = Ok s /\ sg_data s = F /\ map csig_entry (sg_index s) = index) <-> super_blob F index.
Proof. exact (csig_parse_iff F index). Qed.
Print Assumptions C82_super_blob.
(** The iterator gives one result per index entry, in order: the blob there, or an error if there is none. *)
Theorem C82_blobs F index s : bytes_ok F -> csig_parse F = Ok s -> super_blob F index -> exists results_,
  results csiter_next (csig_blobs s) results_ /\
  Forall2 (fun entry r => forall b, r = Some b <-> is_blob F entry b) index results_.
Proof.
  intros HF H HS. apply csig_parse_iff in HS as (s' & H' & _ & <-); [|exact HF]. assert (s' = s) as -> by congruence. apply csig_blobs_run; assumption.
Qed.
Print Assumptions C82_blobs.
(** The signature of a load command is the one in its range of the file. *)
Theorem C82_load_command F dataoff datasize s : zlen F < 2 ^ 63 -> u32_ok dataoff -> u32_ok datasize ->
  code_signature F dataoff datasize = Ok s <-> exists D, zlen D = datasize /\ holds F dataoff D /\ csig_parse D = Ok s.
Proof. intros HF [H1 _] [H2 _]. apply code_signature_iff; assumption. Qed.
Print Assumptions C82_load_command.
Theorem C82_contents b :
  (8 <= zlen (bl_data b) -> exists header, bl_data b = header ++ blob_contents b /\ zlen header = 8) /\
  (zlen (bl_data b) < 8 -> blob_contents b = []).
Proof.
  unfold blob_contents, get_from. split; intro H.
  - replace ((0 <=? 8) && (8 <=? zlen (bl_data b))) with true by lia. exists (ztake 8 (bl_data b)). split; [symmetry; apply ztake_zdrop|apply zlen_ztake; lia].
  - replace ((0 <=? 8) && (8 <=? zlen (bl_data b))) with false by lia. reflexivity.
Qed.
Print Assumptions C82_contents.
Theorem C82_no_panic F : bytes_ok F -> csig_parse F <> Panic.
Proof. exact (csig_parse_np F). Qed.
Print Assumptions C82_no_panic.

(** * C83: the code directory *)
Theorem C83_directory D d : bytes_ok D -> (exists c, cdir_parse D = Ok c /\ cd_data c = D /\ shows c d) <-> is_directory D d.
Proof. exact (cdir_parse_iff D d). Qed.
Print Assumptions C83_directory.
(** There is at most one directory in a blob. *)
Theorem C83_unique D d d' : bytes_ok D -> is_directory D d -> is_directory D d' -> d = d'.
Proof.
  intros HD H1 H2. apply cdir_parse_iff in H1 as (c & E & _ & A); [|exact HD]. apply cdir_parse_iff in H2 as (c' & E' & _ & B); [|exact HD].
  assert (c' = c) as -> by congruence. unfold shows in A, B.
  destruct A as (A1 & A2 & A3 & A4 & A5 & A6 & A7 & A8 & A9 & A10 & A11 & A12 & A13 & A14), B as (B1 & B2 & B3 & B4 & B5 & B6 & B7 & B8 & B9 & B10 & B11 & B12 & B13 & B14).
  destruct d, d'. cbn in *. congruence.
Qed.
Print Assumptions C83_unique.
(** A blob is read as a directory if and only if its magic number says so. *)
Theorem C83_blob b d : bytes_ok (bl_data b) ->
  ((exists c, blob_code_directory b = Ok (Some c) /\ cd_data c = bl_data b /\ shows c d) <-> bl_magic b = 0xfade0c02 /\ is_directory (bl_data b) d) /\
  (blob_code_directory b = Ok None <-> bl_magic b <> 0xfade0c02).
Proof.
  intro HB. unfold blob_code_directory. change cs_magic_directory with 0xfade0c02. destruct (Z.eqb_spec (bl_magic b) 0xfade0c02) as [E|E]; cbn [negb].
  - split.
    + rewrite <- (cdir_parse_iff (bl_data b) d HB). split.
      * intros (c & H & R). split; [exact E|]. destruct (cdir_parse (bl_data b)) as [x| |]; cbn [bind] in H; try discriminate H. exists c. split; [congruence|exact R].
      * intros (_ & c & H & R). exists c. rewrite H. split; [reflexivity|exact R].
    + split; [|congruence]. destruct (cdir_parse (bl_data b)); cbn [bind]; discriminate.
  - split; [|split; [intros _; exact E|reflexivity]]. split; [intros (c & H & _); discriminate H|]. intros (H & _). contradiction.
Qed.
Print Assumptions C83_blob.
Section Hashes.
Context (D : bytes) (d : directory) (c : cdir).
(** Special slot [k] has the [k]-th hash before the hash offset. *)
Theorem C83_special_hash slot h : is_directory D d -> cd_data c = D -> shows c d -> u32_ok slot ->
  cd_special_hash c slot = Ok h <-> 1 <= slot <= di_special_slots d /\ hash_at D d (- slot) h.
Proof. intros H1 H2 H3 [H4 _]. exact (special_iff D d c H1 H2 H3 slot h H4). Qed.
(** Page [i] has the [i]-th hash from the hash offset. *)
Theorem C83_code_hash i h : is_directory D d -> cd_data c = D -> shows c d -> u32_ok i ->
  cd_code_hash c i = Ok h <->
  (di_scatter d = None \/ di_scatter d = Some 0) /\ i < di_code_slots d /\ di_hash_offset d + i * di_hash_size d < 2 ^ 32 /\ hash_at D d i h.
Proof. intros H1 H2 H3 [H4 _]. exact (code_iff D d c H1 H2 H3 i h H4). Qed.
Theorem C83_ident s : is_directory D d -> cd_data c = D -> shows c d -> cd_ident c = Ok s <-> string_at D (di_ident_offset d) s.
Proof. intros H1 H2 H3. exact (ident_iff D d c H1 H2 H3 s). Qed.
Theorem C83_team_id t : is_directory D d -> cd_data c = D -> shows c d -> cd_team_id c = Ok t <->
  match t with None => di_team d = None \/ di_team d = Some 0 | Some s => exists o, di_team d = Some o /\ o <> 0 /\ string_at D o s end.
Proof. intros H1 H2 H3. exact (team_iff D d c H1 H2 H3 t). Qed.
Theorem C83_code_limit : shows c d ->
  cd_code_limit c = match di_code_limit64 d with Some l => if l =? 0 then di_code_limit d else l | None => di_code_limit d end.
Proof. exact (limit_eq d c). Qed.
End Hashes.
Print Assumptions C83_special_hash.
Print Assumptions C83_code_hash.
Print Assumptions C83_ident.
Print Assumptions C83_team_id.
Print Assumptions C83_code_limit.
Theorem C83_no_panic D c slot i : bytes_ok D -> cdir_parse D <> Panic /\ cd_special_hash c slot <> Panic /\ cd_code_hash c i <> Panic /\ cd_team_id c <> Panic /\ cd_ident c <> Panic.
Proof.
  intro H. split; [exact (cdir_np D H)|]. split; [apply special_np|]. split; [apply code_np|]. split; [apply team_np|]. unfold cd_ident. apply string_at_no_panic.
Qed.
Print Assumptions C83_no_panic.

(** * An example: a directory with an identifier, a team, two special slots and two code slots, followed by a requirements blob; the third
    entry of the index is outside the data. *)
Definition w4 (v : Z) : bytes := write_u Big 4 v.
Definition ex_dir : bytes :=
  concat [w4 0xfade0c02; w4 104; w4 0x20400; w4 0x10000; w4 98; w4 88; w4 2; w4 2; w4 5000; [2; 2; 0; 12]; w4 0;
    w4 0; w4 91; w4 0; write_u Big 8 0; write_u Big 8 0; write_u Big 8 16384; write_u Big 8 1;
    [97; 98; 0]; [84; 0]; [0]; [21; 22]; [11; 12]; [31; 32]; [33; 34]; [0; 0]].
Definition ex_sig : bytes :=
  concat [w4 0xfade0cc0; w4 152; w4 3; w4 0; w4 36; w4 2; w4 140; w4 5; w4 1000; ex_dir; w4 0xfade0c01; w4 12; w4 7].
Definition ex_d : directory := {|
  di_version := 0x20400; di_flags := 0x10000; di_hash_offset := 98; di_ident_offset := 88; di_special_slots := 2; di_code_slots := 2; di_code_limit := 5000;
  di_hash_size := 2; di_hash_type := 2; di_page_size := 12; di_scatter := Some 0; di_team := Some 91; di_code_limit64 := Some 0; di_exec := Some (0, 16384, 1) |}.
Definition ex_s : out csig := csig_parse ex_sig.
Example C82_ex_hyps : bytes_ok ex_sig /\ super_blob ex_sig [(0, 36); (2, 140); (5, 1000)].
Proof.
  assert (H : bytes_ok ex_sig) by (apply bytes_ok_forallb; vm_compute; reflexivity). split; [exact H|].
  apply csig_parse_iff; [exact H|]. eexists. split; [vm_compute; reflexivity|]. split; vm_compute; reflexivity.
Qed.
Example C82_ex : (s <- ex_s ;; Ok (match csiter_next (csig_blobs s) with (Ok (Some b), it) =>
    Some (bl_slot b, bl_offset b, bl_magic b, bytes_eqb (bl_data b) ex_dir, match csiter_next it with (Ok (Some b), it) => Some (bl_slot b, blob_contents b, fst (csiter_next it)) | _ => None end)
    | _ => None end)) = Ok (Some (0, 36, 0xfade0c02, true, Some (2, [0; 0; 0; 7], Err))).
Proof. vm_compute. reflexivity. Qed.
Example C83_ex_hyps : bytes_ok ex_dir /\ is_directory ex_dir ex_d.
Proof.
  assert (H : bytes_ok ex_dir) by (apply bytes_ok_forallb; vm_compute; reflexivity). split; [exact H|].
  apply cdir_parse_iff; [exact H|]. eexists. split; [vm_compute; reflexivity|]. vm_compute. repeat split.
Qed.
Example C83_ex : (c <- cdir_parse ex_dir ;; Ok (cd_ident c, cd_team_id c, cd_special_hash c 1, cd_special_hash c 2, cd_special_hash c 3, cd_code_hash c 0, cd_code_hash c 1, cd_code_hash c 2, cd_code_limit c)) =
  Ok (Ok [97; 98], Ok (Some [84]), Ok [11; 12], Ok [21; 22], Err, Ok [31; 32], Ok [33; 34], Err, 5000).
Proof. vm_compute. reflexivity. Qed.
