(** Property theorems C94, C95 (the version sections a Builder writes). *)
From Verif Require Import Core_proofs Str_proofs Ver_spec Ver_proofs Bver_spec Bver_proofs Bver2_proofs Bver3_proofs.

(** * C94 *)
(** For any builder whose versions are well formed and within the limits, counting succeeds; and with any string table
    that finds the strings added while counting, the definition section is written, has the size reserved for it by
    [write] and the size given by [gnu_verdef_size], and is read back as the base definition (if any) followed by
    exactly the definitions that are not deleted: their ids, flags, hashes and the offsets of all their names, whether
    or not the base shares its name entry with the first definition. *)
Theorem C94_definitions : forall e str base files vers, Forall (ver_ok files) vers -> 2 + zlen vers - 1 <= 32767 -> zlen files < 2 ^ 16 ->
  exists c, count_all base files vers = Ok c /\
    (finds str (vc_strs c) -> exists data its views,
      w_verdef_section e str base vers c = Ok data /\ bytes_ok data /\ b_verdef_size base vers = Ok (zlen data) /\ gnu_verdef_size (vc_def c) (vc_daux c) = zlen data /\
      runs (verdef_next e) data its false [] /\ Forall2 (reads_def e) its views /\ Forall2 (view_of_def str) (all_defs base vers) views).
Proof. exact verdef_section. Qed.
Print Assumptions C94_definitions.
(** The requirement section: one record for each file that is not deleted, with the live requirements on that file in
    table order; the same sizes. *)
Theorem C94_requirements : forall e str base files vers, Forall (ver_ok files) vers -> 2 + zlen vers - 1 <= 32767 -> zlen files < 2 ^ 16 ->
  exists c, count_all base files vers = Ok c /\
    (finds str (vc_strs c) -> exists data its views,
      w_verneed_section e str vers files c = Ok data /\ bytes_ok data /\ b_verneed_size files vers = zlen data /\ gnu_verneed_size (vc_need c) (vc_naux c) = zlen data /\
      runs (verneed_next e) data its false [] /\ Forall2 (reads_need e) its views /\ Forall2 (view_of_need str vers) (live_files 0 files) views).
Proof. exact verneed_section. Qed.
Print Assumptions C94_requirements.
(** Finding: the hypothesis on requirements is needed.  A live requirement on a file that was deleted is counted but not
    written, so the section is shorter than the space reserved for it. *)
Theorem C94_deleted_file_refuted : exists files vers c data, count_all None files vers = Ok c /\
  w_verneed_section Little (fun _ => Ok 1) vers files c = Ok data /\ zlen data = 0 /\ gnu_verneed_size (vc_need c) (vc_naux c) = 16 /\ b_verneed_size files vers = 16.
Proof.
  exists [{| f_del := true; f_name := [65] |}], [{| v_del := false; v_data := VNeed 0 [66] 0 |}]. do 2 eexists. split; [vm_compute; reflexivity|]. split; [vm_compute; reflexivity|].
  split; [reflexivity|]. split; reflexivity.
Qed.
Print Assumptions C94_deleted_file_refuted.

(** A base name, a definition with the same name (shared), a deleted definition, a definition with two names, and two
    requirements on the second of two files. *)
Definition ex_base : option bytes := Some [65].
Definition ex_files : list bfile := [{| f_del := true; f_name := [70] |}; {| f_del := false; f_name := [71] |}].
Definition ex_vers : list bver :=
  [{| v_del := false; v_data := VDef [[65]] 0 |}; {| v_del := true; v_data := VDef [[66]] 0 |}; {| v_del := false; v_data := VNeed 1 [67] 0 |};
   {| v_del := false; v_data := VDef [[68]; [65]] 0 |}; {| v_del := false; v_data := VNeed 1 [69] 2 |}].
Definition ex_str (s : bytes) : out Z := match s with [b] => Ok (b - 64) | _ => Err end.
Definition ex_c : vcount := Eval vm_compute in match count_all ex_base ex_files ex_vers with Ok c => c | _ => vc_init None [] end.
Lemma ex_count : count_all ex_base ex_files ex_vers = Ok ex_c.
Proof. vm_compute. reflexivity. Qed.
Example C94_ex_hyps : Forall (ver_ok ex_files) ex_vers /\ 2 + zlen ex_vers - 1 <= 32767 /\ zlen ex_files < 2 ^ 16 /\
  match count_all ex_base ex_files ex_vers with Ok c => finds ex_str (vc_strs c) | _ => False end.
Proof.
  split.
  { repeat apply Forall_cons; try apply Forall_nil; intro H; cbn [v_del v_data] in *; try discriminate H;
      first [split; [discriminate|]; split; [reflexivity|unfold u16_ok; lia] | split; [unfold u16_ok; lia|]; exists {| f_del := false; f_name := [71] |}; split; reflexivity]. }
  split; [vm_compute; discriminate|]. split; [reflexivity|].
  rewrite ex_count. unfold finds, ex_c. cbn [vc_strs]. repeat apply Forall_cons; try apply Forall_nil; (eexists; split; [reflexivity|]; unfold u32_ok; lia).
Qed.
Example C94_ex : match count_all ex_base ex_files ex_vers with
  | Ok c => vc_def c = 3 /\ vc_daux c = 3 /\ vc_shared c = true /\ vc_need c = 1 /\ vc_naux c = 2 /\ b_verdef_size ex_base ex_vers = Ok 84 /\
      match w_verdef_section Little ex_str ex_base ex_vers c with Ok d => zlen d = 84 | _ => False end /\
      match w_verneed_section Little ex_str ex_vers ex_files c with Ok d => zlen d = 48 | _ => False end
  | _ => False
  end.
Proof. vm_compute. repeat split. Qed.

(** * C95 *)
(** End to end.  [others] are the strings of the dynamic entries and symbols, added to the string table before those of
    the versions.  If the string table is written, so are the two version sections, and parsing them with the string table
    data gives a version table in which every index from 2 on is the live definition or requirement with that id (its name,
    hash and file name), and an error if there is none. *)
Theorem C95_version_table : forall e base files vers others, Forall (ver_ok files) vers -> 2 + zlen vers - 1 <= 32767 -> zlen files < 2 ^ 16 ->
  exists c, count_all base files vers = Ok c /\
    (Forall str_ok (others ++ vc_strs c) -> zlen (others ++ vc_strs c) <= 2 ^ 32 ->
     exists ids t w t' res, adds st_new (others ++ vc_strs c) = (Ok ids, t) /\ st_write t 1 = (res, w, t') /\
       (forall n, res = Ok n -> exists vd vn, w_verdef_section e (str_offset t') base vers c = Ok vd /\ w_verneed_section e (str_offset t') vers files c = Ok vn /\
          forall versyms, exists vt, vt_parse e versyms (Some vd) (Some vn) (strtab_get (Some ([0] ++ w)) 0 n) = Ok vt /\ vt_symbols vt = versyms /\
            forall i, 2 <= i -> vt_version vt i = read_version files vers i)).
Proof. exact version_table_written. Qed.
Print Assumptions C95_version_table.
Example C95_ex_hyps : match count_all ex_base ex_files ex_vers with
  | Ok c => Forall str_ok ([[88]] ++ vc_strs c) /\ zlen ([[88]] ++ vc_strs c) <= 2 ^ 32 /\
      match adds st_new ([[88]] ++ vc_strs c) with (Ok _, t) => fst (fst (st_write t 1)) = Ok 13 | _ => False end
  | _ => False
  end.
Proof.
  rewrite ex_count. unfold ex_c. cbn [vc_strs app]. split; [|split; [vm_compute; discriminate|vm_compute; reflexivity]].
  repeat apply Forall_cons; try apply Forall_nil; (split; [apply bytes_ok_forallb; vm_compute; reflexivity|intros [H|[]]; discriminate H]).
Qed.
Example C95_ex : read_version ex_files ex_vers 2 = Ok (Some {| v_name := [65]; v_hash := elf_hash [65]; v_valid := true; v_file := None |}) /\
  read_version ex_files ex_vers 3 = Err /\
  read_version ex_files ex_vers 4 = Ok (Some {| v_name := [67]; v_hash := elf_hash [67]; v_valid := true; v_file := Some [71] |}).
Proof. split; [reflexivity|]. split; reflexivity. Qed.
