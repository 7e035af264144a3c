(** Property theorems C24 (ELF symbol versions). *)
From Verif Require Import Core_proofs Str_proofs Ver_spec Ver_proofs.

(** * C24 *)
(** Definitions written with the Writer (own names, or sharing the names of the next definition) are read back
    exactly: the fields, and the names through the auxiliary iterator; the size is the one computed for the section. *)
Theorem C24_verdef_roundtrip : forall e buf l w, Forall (fun it => def_ok (snd it)) l -> items_wf l -> w_def_rem w = zlen l -> w_buf w = buf ->
  exists w' data its, each (user_item e) w l = Ok w' /\ w_buf w' = buf ++ data /\ w_def_rem w' = 0 /\
    zlen data = gnu_verdef_size (zlen l) (own_names l) /\
    runs (verdef_next e) data its false [] /\ Forall2 (reads_def e) its (map snd l).
Proof. exact verdef_roundtrip. Qed.
Print Assumptions C24_verdef_roundtrip.
(** With the encoder, also the links between the auxiliary entries are right: 8 to the next one, 0 for the last. *)
Theorem C24_encoder_roundtrip : forall e l, Forall def_ok l ->
  exists its, runs (verdef_next e) (enc_defs e l) its false [] /\
    Forall2 (fun it d => reads_def e it d /\ exists auxs st, runs (verdaux_next e) (snd it) auxs false st /\ map vda_next auxs = links (dv_names d)) its l.
Proof. exact encoder_roundtrip. Qed.
Print Assumptions C24_encoder_roundtrip.
(** That is refuted for the Writer (finding): it counts the auxiliary entry that [gnu_verdef] writes as still to be
    written, so the last entry of a definition with two names gets a link of 8 instead of 0. *)
Theorem C24_writer_last_link_refuted : exists e d w w' it st auxs st', def_ok d /\ w_def_rem w = 1 /\ w_buf w = [] /\
  user_def e w d = Ok w' /\ verdef_next e (w_buf w') = (Ok (Some it), st) /\
  runs (verdaux_next e) (snd it) auxs false st' /\ map vda_next auxs = [8; 8] /\ links (dv_names d) = [8; 0].
Proof.
  exists Little, {| dv_version := 1; dv_flags := 0; dv_index := 2; dv_hash := 5; dv_names := [1; 7] |},
    {| w_buf := []; w_def_rem := 1; w_daux_rem := 0; w_need_rem := 0; w_naux_rem := 0 |}.
  do 3 eexists. exists [{| vda_name := 1; vda_next := 8 |}; {| vda_name := 7; vda_next := 8 |}]. eexists.
  split.
  { unfold def_ok, u16_ok, u32_ok; cbn [dv_version dv_flags dv_index dv_hash dv_names]. repeat split; try lia; [discriminate|repeat constructor; lia]. }
  split; [reflexivity|]. split; [reflexivity|]. split; [vm_compute; reflexivity|]. split; [vm_compute; reflexivity|]. split.
  { eapply runs_more; [vm_compute; reflexivity|]. eapply runs_more; [vm_compute; reflexivity|]. apply runs_done. reflexivity. }
  split; reflexivity.
Qed.
Print Assumptions C24_writer_last_link_refuted.
Theorem C24_verneed_roundtrip : forall e buf l w, Forall need_ok l -> w_need_rem w = zlen l -> w_buf w = buf ->
  exists w' data its, each (user_need e) w l = Ok w' /\ w_buf w' = buf ++ data /\ w_need_rem w' = 0 /\
    zlen data = gnu_verneed_size (zlen l) (all_auxs l) /\
    runs (verneed_next e) data its false [] /\ Forall2 (reads_need e) its l.
Proof. exact verneed_roundtrip. Qed.
Print Assumptions C24_verneed_roundtrip.
(** Arbitrary data: iteration ends without panic and visits exactly the chain of records that fit in the data; each
    record comes with an iterator at its auxiliary entries. *)
Theorem C24_verdef_total : forall e data, bytes_ok data -> exists l er,
  chain (zlen data) (verdef_fits e data) (fun o => vd_next (at_ verdef_of e data o)) 0 l er /\
  runs (verdef_next e) data
    (map (fun o => let vd := at_ verdef_of e data o in (vd, (zdrop (o + vd_aux vd) data, vd_cnt vd))) l) er [].
Proof. intros e data Hb. apply (verdef_chain e data 0 Hb). pose proof (zlen_nonneg data). lia. Qed.
Print Assumptions C24_verdef_total.
Theorem C24_verneed_total : forall e data, bytes_ok data -> exists l er,
  chain (zlen data) (verneed_fits e data) (fun o => vn_next (at_ verneed_of e data o)) 0 l er /\
  runs (verneed_next e) data
    (map (fun o => let vn := at_ verneed_of e data o in (vn, (zdrop (o + vn_aux vn) data, vn_cnt vn))) l) er [].
Proof. intros e data Hb. apply (verneed_chain e data 0 Hb). pose proof (zlen_nonneg data). lia. Qed.
Print Assumptions C24_verneed_total.
(** Auxiliary iterators, at any offset and count: the chain of at most [cnt] entries (a zero link revisits the same
    entry, but the count bounds the iteration). *)
Theorem C24_verdaux_total : forall e data o cnt, bytes_ok data -> 0 <= o <= zlen data -> 0 <= cnt -> exists l er st,
  aux_chain (verdaux_fits e data) (fun o => vda_next (at_ verdaux_of e data o)) o cnt l er /\
  runs (verdaux_next e) (zdrop o data, cnt) (map (at_ verdaux_of e data) l) er st /\ zlen l <= cnt.
Proof. exact verdaux_chain. Qed.
Print Assumptions C24_verdaux_total.
Theorem C24_vernaux_total : forall e data o cnt, bytes_ok data -> 0 <= o <= zlen data -> 0 <= cnt -> exists l er st,
  aux_chain (vernaux_fits e data) (fun o => vna_next (at_ vernaux_of e data o)) o cnt l er /\
  runs (vernaux_next e) (zdrop o data, cnt) (map (at_ vernaux_of e data) l) er st /\ zlen l <= cnt.
Proof. exact vernaux_chain. Qed.
Print Assumptions C24_vernaux_total.
(** The version table: on arbitrary data parsing does not panic, succeeds exactly if all records and names can be
    read, and then every version index is looked up to the last record that defines or requires it. *)
Theorem C24_version_table : forall e versyms verdefs verneeds strings, opt_ok verdefs -> opt_ok verneeds -> (forall o, strings o <> Panic) ->
  match vt_parse e versyms verdefs verneeds strings with
  | Ok t => vt_symbols t = versyms /\ exists l, table_entries e verdefs verneeds strings l /\
      forall i, 0 <= i -> vt_version t i = if i <? 2 then Ok None else match lookup_last l i with Some v => Ok (Some v) | None => Err end
  | Err => ~ exists l, table_entries e verdefs verneeds strings l
  | Panic => False
  end.
Proof. exact vt_parse_spec. Qed.
Print Assumptions C24_version_table.
(** [matches]: same hash and name if a version is needed; otherwise an unversioned or a visible symbol. *)
Theorem C24_matches : forall t sym need, Forall u16_ok (vt_symbols t) ->
  let v := match zget (vt_symbols t) sym with Some v => v | None => 1 end in
  vt_matches t sym need = true <-> exists def, vt_version t (v mod 2 ^ 15) = Ok def /\
    match def, need with
    | Some def, Some need => v_hash need = v_hash def /\ v_name need = v_name def
    | None, Some _ => False
    | Some _, None => v < 2 ^ 15
    | None, None => True
    end.
Proof. exact matches_spec. Qed.
Print Assumptions C24_matches.

(** A base definition sharing its name with definition 2, and definition 3 with two names; a need with two versions. *)
Definition ex_defs : list (bool * def_view) :=
  [(true, {| dv_version := 1; dv_flags := 1; dv_index := 1; dv_hash := 77; dv_names := [1] |});
   (false, {| dv_version := 1; dv_flags := 0; dv_index := 2; dv_hash := 77; dv_names := [1] |});
   (false, {| dv_version := 1; dv_flags := 0; dv_index := 3; dv_hash := 78; dv_names := [4; 1] |})].
Definition ex_needs : list need_view :=
  [{| nd_version := 1; nd_file := 7; nd_auxs := [{| nv_flags := 0; nv_index := 4; nv_name := 9; nv_hash := 5 |}; {| nv_flags := 0; nv_index := 5; nv_name := 4; nv_hash := 6 |}] |}].
Definition ex_w0 : vwriter := {| w_buf := []; w_def_rem := 3; w_daux_rem := 0; w_need_rem := 1; w_naux_rem := 0 |}.
Definition ex_vd : bytes := match each (user_item Little) ex_w0 ex_defs with Ok w => w_buf w | _ => [] end.
Definition ex_vn : bytes := match each (user_need Little) ex_w0 ex_needs with Ok w => w_buf w | _ => [] end.
Definition ex_str : bytes := [0; 65; 66; 0; 67; 68; 0; 69; 0; 70; 0].
Example C24_ex_hyps : Forall (fun it => def_ok (snd it)) ex_defs /\ items_wf ex_defs /\ w_def_rem ex_w0 = zlen ex_defs /\
  Forall need_ok ex_needs /\ w_need_rem ex_w0 = zlen ex_needs /\ opt_ok (Some ex_vd) /\ opt_ok (Some ex_vn) /\
  forall o, strtab_get (Some ex_str) 0 11 o <> Panic.
Proof.
  split; [repeat constructor; cbn; try lia; try discriminate|]. split; [split; [exists []; reflexivity|exact I]|]. split; [reflexivity|].
  split; [repeat constructor; cbn; lia|]. split; [reflexivity|]. split; [apply bytes_ok_forallb; vm_compute; reflexivity|].
  split; [apply bytes_ok_forallb; vm_compute; reflexivity|]. intro; apply strtab_get_no_panic.
Qed.
Example C24_ex : zlen ex_vd = 84 /\ zlen ex_vn = 48 /\
  match vt_parse Little [0; 32771; 5] (Some ex_vd) (Some ex_vn) (strtab_get (Some ex_str) 0 11) with
  | Ok t => vt_version t 1 = Ok None /\
      vt_version t 2 = Ok (Some {| v_name := [65; 66]; v_hash := 77; v_valid := true; v_file := None |}) /\
      vt_version t 3 = Ok (Some {| v_name := [67; 68]; v_hash := 78; v_valid := true; v_file := None |}) /\
      vt_version t 4 = Ok (Some {| v_name := [70]; v_hash := 5; v_valid := true; v_file := Some [69] |}) /\
      vt_version t 6 = Err /\
      vt_matches t 1 None = false /\ vt_matches t 2 None = true /\
      vt_matches t 2 (Some {| v_name := [67; 68]; v_hash := 6; v_valid := true; v_file := None |}) = true
  | _ => False
  end.
Proof. vm_compute. repeat split. Qed.
