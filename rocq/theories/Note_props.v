(** Property theorems C22 (ELF notes and GNU properties). *)
From Verif Require Import Note_spec Note_proofs.

(** * C22 *)
(** The alignments accepted: up to 4 is treated as 4; 8; anything else is an error. *)
Theorem C22_alignment : forall al, 0 <= al -> note_align al = (if al <=? 4 then Ok 4 else if al =? 8 then Ok 8 else Err).
Proof. exact note_align_ok. Qed.
Print Assumptions C22_alignment.
(** A well-formed encoding of any list of notes yields exactly these notes (type, name and descriptor; the sizes
    in the header are the lengths), then [None]. *)
Theorem C22_notes_decoded : forall e al l data, al = 4 \/ al = 8 -> bytes_ok data -> notes_data e al l data ->
  exists ms, runs (note_next e al) data ms false [] /\ map (view e) ms = l /\
    Forall (fun m => n_namesz e m = zlen (nt_name m) /\ n_descsz e m = zlen (nt_desc m)) ms.
Proof. exact notes_decoded. Qed.
Print Assumptions C22_notes_decoded.
(** Arbitrary data: iteration ends without panic.  Without an error, the data was exactly an encoding of the notes
    returned.  With an error, the data was an encoding of the notes returned followed by something at whose start
    there is no note.  Afterwards the iterator is empty. *)
Theorem C22_notes_total : forall e al data, al = 4 \/ al = 8 -> bytes_ok data ->
  exists ms er, runs (note_next e al) data ms er [] /\
    Forall (fun m => n_namesz e m = zlen (nt_name m) /\ n_descsz e m = zlen (nt_desc m)) ms /\
    if er then exists post, notes_then e al post (map (view e) ms) data /\ post <> [] /\
                 forall n b tail, post = b ++ tail -> ~ note_body e al n b
    else notes_data e al (map (view e) ms) data.
Proof. exact notes_total. Qed.
Print Assumptions C22_notes_total.
(** [name] is [name_bytes] without its trailing zero bytes. *)
Theorem C22_name : forall n, exists k, 0 <= k /\ nt_name n = note_name n ++ zeros k /\ forall pre x, note_name n = pre ++ [x] -> x <> 0.
Proof. exact note_name_spec. Qed.
Print Assumptions C22_name.
(** GNU properties: the same two statements. *)
Theorem C22_props_decoded : forall e al l data, al = 4 \/ al = 8 -> bytes_ok data -> props_then e al [] l data ->
  runs (prop_next e al) data l false [].
Proof. exact props_decoded. Qed.
Print Assumptions C22_props_decoded.
Theorem C22_props_total : forall e al data, al = 4 \/ al = 8 -> bytes_ok data ->
  exists l er post, runs (prop_next e al) data l er [] /\ props_then e al post l data /\
    if er then post <> [] /\ forall p b pad tail, post = b ++ pad ++ tail -> prop_body e p b -> ~ padding al (zlen b) pad
    else post = [].
Proof. exact props_total. Qed.
Print Assumptions C22_props_total.
(** The property iterator of a note: only for a GNU property note, over its descriptor, with the alignment of the
    ELF class. *)
Theorem C22_gnu_properties : forall is64 e n r, gnu_properties is64 e n = Some r <->
  note_name n = [71; 78; 85] /\ n_type e n = 5 /\ r = ((if is64 then 8 else 4), nt_desc n).
Proof.
  intros is64 e n r. unfold gnu_properties. destruct (bytes_eqb (note_name n) [71; 78; 85]) eqn:E1.
  - apply bytes_eqb_eq in E1. destruct (Z.eqb_spec (n_type e n) 5); cbn [negb orb]; split; intro H; try (inversion H; auto; fail); try discriminate.
    + destruct H as (_ & _ & ->). reflexivity.
    + destruct H; tauto.
  - apply bytes_eqb_neq in E1. cbn [negb orb]. split; [discriminate|tauto].
Qed.
Print Assumptions C22_gnu_properties.

(** Two notes; the padding of the last one is missing. *)
Definition ex_notes : bytes :=
  words Little [4; 5; 3] ++ [71;78;85;0] ++ [1;2;3;4;5] ++ [0;0;0] ++ words Little [3; 1; 7] ++ [65;66;0] ++ [9] ++ [8].
Example C22_ex :
  (let '(r1, d1) := note_next Little 4 ex_notes in let '(r2, d2) := note_next Little 4 d1 in
   match r1, r2 with
   | Ok (Some n1), Ok (Some n2) =>
     view Little n1 = {| v_type := 3; v_name := [71;78;85;0]; v_desc := [1;2;3;4;5] |} /\ note_name n1 = [71;78;85] /\
     view Little n2 = {| v_type := 7; v_name := [65;66;0]; v_desc := [8] |}
   | _, _ => False
   end /\ fst (note_next Little 4 d2) = Ok None).
Proof. vm_compute. repeat split. Qed.
Example C22_ex_hyps : bytes_ok ex_notes /\
  notes_data Little 4 [{| v_type := 3; v_name := [71;78;85;0]; v_desc := [1;2;3;4;5] |}; {| v_type := 7; v_name := [65;66;0]; v_desc := [8] |}] ex_notes.
Proof.
  split; [apply bytes_ok_forallb; vm_compute; reflexivity|]. right.
  exists [{| v_type := 3; v_name := [71;78;85;0]; v_desc := [1;2;3;4;5] |}], {| v_type := 7; v_name := [65;66;0]; v_desc := [8] |}.
  exists (words Little [3; 1; 7] ++ [65;66;0] ++ [9] ++ [8]), [], [0;0;0].
  split; [reflexivity|]. split.
  { split; [reflexivity|]. split; [reflexivity|]. split; [split; [vm_compute; congruence|reflexivity]|]. exists [9].
    split; [split; [exists 4; reflexivity|reflexivity]|reflexivity]. }
  split; [split; [exists 5; reflexivity|reflexivity]|]. split; [discriminate|].
  apply (nt_cons Little 4 _ {| v_type := 3; v_name := [71;78;85;0]; v_desc := [1;2;3;4;5] |} (words Little [4; 5; 3] ++ [71;78;85;0] ++ [1;2;3;4;5]) [0;0;0] []).
  - split; [reflexivity|]. split; [reflexivity|]. split; [split; [vm_compute; congruence|reflexivity]|]. exists [].
    split; [split; [exists 4; reflexivity|reflexivity]|reflexivity].
  - split; [exists 6; reflexivity|reflexivity].
  - constructor.
Qed.
Definition ex_gprops : bytes := words Big [3221225474; 4; 3; 0] ++ words Big [5; 0].
Example C22_ex_props : runs (prop_next Big 8) ex_gprops [{| pr_type := 3221225474; pr_data := [0;0;0;3] |}; {| pr_type := 5; pr_data := [] |}] false [] /\
  prop_data_u32 Big {| pr_type := 3221225474; pr_data := [0;0;0;3] |} = Ok 3.
Proof.
  split; [|reflexivity]. eapply runs_more; [vm_compute; reflexivity|]. eapply runs_more; [vm_compute; reflexivity|]. apply runs_done. reflexivity.
Qed.
