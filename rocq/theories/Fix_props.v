(** C69, C70: chained fixups. *)
From Verif Require Import Core_proofs Util_proofs File_proofs Iter_proofs.
From Verif Require Dyld_props Ar_spec.
From Verif Require Import Fix_spec Fix_proofs FixC_proofs FixI_proofs FixS_proofs.

(** * C69 *)
(** A pointer word of the size of its format is decoded exactly to the fields that are packed in it *)
Theorem C69_pointer vm v f d fx : 0 <= v < 2 ^ (8 * ptr_size f) -> fixup_parse f v vm = Ok (d, fx) <-> pointer vm v f d fx.
Proof. exact (parse_iff vm v f d fx). Qed.
Print Assumptions C69_pointer.
Theorem C69_pointer_no_panic vm v f : fixup_parse f v vm <> Panic.
Proof. exact (parse_np f v vm). Qed.
Print Assumptions C69_pointer_no_panic.
(** The iteration over the fixups of a segment returns exactly the pointers of the chains of its pages, in order *)
Theorem C69_fixups e g vm D l err : bytes_ok D -> zlen D < 2 ^ 63 -> cseg_ok g -> zlen (cs_starts g) < 2 ^ 63 ->
  (exists s, runs (fx_next e g vm D) fx_new l err s) <-> pages e g vm D 0 l err.
Proof. intros. apply fixups_iff; assumption. Qed.
Print Assumptions C69_fixups.
(** It always ends, without panic; after the end or an error, it returns nothing more *)
Theorem C69_total e g vm D : bytes_ok D -> zlen D < 2 ^ 63 -> cseg_ok g -> zlen (cs_starts g) < 2 ^ 63 ->
  exists l err s, runs (fx_next e g vm D) fx_new l err s /\ fx_next e g vm D s = (Ok None, s).
Proof. intros B L G S. destruct (fixups_total e g vm D B L G S) as (l & err & s & _ & R & E). exists l, err, s. auto. Qed.
Print Assumptions C69_total.

(** Three pages of 16 bytes: one chain of two pointers, no fixups, two chains of one pointer *)
Definition ex_g : cseg := {| cs_index := 1; cs_size := 32; cs_page_size := 16; cs_format := 6; cs_offset := 0; cs_max := 0; cs_page_count := 3; cs_starts := [0; 0xffff; 0x8003; 0; 0x8008] |}.
Definition ex_D : bytes := write_u Little 8 (0x1000 + 2 * 2 ^ 51) ++ write_u Little 8 (5 + 3 * 2 ^ 24 + 2 ^ 63) ++ zeros 16 ++ write_u Little 8 (0x20 + 7 * 2 ^ 36) ++ write_u Little 8 (2 ^ 63).
Example C69_ex_hyps : bytes_ok ex_D /\ zlen ex_D = 48 /\ cseg_ok ex_g.
Proof. split; [apply bytes_ok_forallb; vm_compute; reflexivity|]. split; [reflexivity|]. unfold cseg_ok, u16_ok, u32_ok, u64_ok. cbn [cs_size cs_page_size cs_format cs_offset cs_max cs_page_count cs_starts ex_g]. repeat (split; [lia|]). repeat constructor; lia. Qed.
Example C69_ex : Dyld_props.pull (fx_next Little ex_g 0 ex_D) 5 fx_new =
  ([(0, FRebase 0x1000 None); (8, FBind 5 3 None); (32, FRebase (0x20 + 7 * 2 ^ 56) None); (40, FBind 0 0 None)], false).
Proof. vm_compute. reflexivity. Qed.
Example C69_ex_auth : fixup_parse 1 (0x4000 + 0x1234 * 2 ^ 32 + 2 ^ 48 + 2 * 2 ^ 49 + 3 * 2 ^ 51 + 2 ^ 63) 0 = Ok (24, FRebase 0x4000 (Some {| fa_key := 2; fa_diversity := 0x1234; fa_addr_div := true |})).
Proof. vm_compute. reflexivity. Qed.

(** * C70 *)
(** The payload of LC_DYLD_CHAINED_FIXUPS and its header *)
Theorem C70_header e cmd F d hb : bytes_ok F -> zlen F < 2 ^ 63 -> 0 <= fld e 8 4 cmd -> 0 <= fld e 12 4 cmd ->
  chained_fixups e cmd F = Ok (d, hb) <-> holds F (fld e 8 4 cmd) d /\ zlen d = fld e 12 4 cmd /\ exists h, cheader_ok h /\ hb = cheader_enc e h /\ holds d 0 hb.
Proof. exact (chained_iff e cmd F d hb). Qed.
Print Assumptions C70_header.
(** The imports: available exactly if not compressed and in bounds; and what the iteration over them returns *)
Theorem C70_imports e data h it : cheader_ok h -> cfix_imports e data (cheader_enc e h) = Ok it <->
  ch_compression h = 0 /\ ch_imports h <= zlen data /\ ch_symbols h <= zlen data /\
  it = {| ci_imports := zdrop (ch_imports h) data; ci_symbols := zdrop (ch_symbols h) data; ci_count := ch_count h; ci_format := ch_format h |}.
Proof. exact (cfix_imports_iff e data h it). Qed.
Print Assumptions C70_imports.
Theorem C70_import_items e symbols f n data l err : bytes_ok data -> 0 <= n ->
  (exists st, runs (ci_next e) {| ci_imports := data; ci_symbols := symbols; ci_count := n; ci_format := f |} l err st) <-> imports_read e symbols f n data l err.
Proof. exact (imports_iff e symbols f n data l err). Qed.
Print Assumptions C70_import_items.
Theorem C70_imports_total e symbols f n data : bytes_ok data -> 0 <= n -> exists l err st,
  runs (ci_next e) {| ci_imports := data; ci_symbols := symbols; ci_count := n; ci_format := f |} l err st /\ ci_next e st = (Ok None, st).
Proof. intros B Hn. destruct (imports_total e symbols f (Z.to_nat n) data B) as (l & err & st & R & E & _). rewrite Z2Nat.id in R by exact Hn. exists l, err, st. auto. Qed.
Print Assumptions C70_imports_total.
(** The segments: where their offsets are, and what the iteration returns for each of the non-zero ones *)
Theorem C70_segments e data h d offs : bytes_ok data -> zlen data < 2 ^ 63 -> cheader_ok h -> cfix_segments e data (cheader_enc e h) = Ok (d, offs) <->
  d = zdrop (ch_starts h) data /\ Forall u32_ok offs /\ u32_ok (zlen offs) /\ holds data (ch_starts h) (image_starts e offs).
Proof. exact (cfix_segments_iff e data h d offs). Qed.
Print Assumptions C70_segments.
Theorem C70_segment_items e d offs : bytes_ok d -> zlen d < 2 ^ 63 -> Forall u32_ok offs -> u32_ok (zlen offs) ->
  exists L, Ar_spec.results (cg_next e d offs) 0 L /\ Forall2 (segment_result e d) (present 0 offs) L.
Proof. intros B HL F H. destruct (segs_results e d B HL offs F H offs [] eq_refl) as (L & R & Q). exists L. auto. Qed.
Print Assumptions C70_segment_items.

(** header at 0; starts at 28: 3 segments, of which the second has fixups; imports at 28 + 16 + 32; symbols behind them *)
Definition ex_h : cheader := {| ch_starts := 28; ch_imports := 76; ch_symbols := 84; ch_count := 2; ch_format := 1; ch_compression := 0 |}.
Definition ex_data : bytes :=
  cheader_enc Little ex_h ++ image_starts Little [0; 16; 0] ++
  (write_u Little 4 32 ++ write_u Little 2 16 ++ write_u Little 2 6 ++ write_u Little 8 0 ++ write_u Little 4 0 ++ write_u Little 2 3 ++ concat (map (write_u Little 2) (cs_starts ex_g))) ++
  write_u Little 4 (1 + 1 * 2 ^ 9) ++ write_u Little 4 (254 + 2 ^ 8 + 3 * 2 ^ 9) ++ [0; 97; 0; 98; 0].
Example C70_ex_hyps : bytes_ok ex_data /\ cheader_ok ex_h /\ cfix_parse Little ex_data = Ok (cheader_enc Little ex_h).
Proof. split; [apply bytes_ok_forallb; vm_compute; reflexivity|]. split; [|vm_compute; reflexivity]. unfold cheader_ok, u32_ok. cbn [ch_starts ch_imports ch_symbols ch_count ch_format ch_compression ex_h]. lia. Qed.
Example C70_ex_imports : match cfix_imports Little ex_data (cheader_enc Little ex_h) with Ok it => Dyld_props.pull (ci_next Little) 3 it | _ => ([], true) end =
  ([{| cm_dylib := 1; cm_weak := false; cm_addend := 0; cm_name := [97] |}; {| cm_dylib := -2; cm_weak := true; cm_addend := 0; cm_name := [98] |}], false).
Proof. vm_compute. reflexivity. Qed.
Example C70_ex_segments : match cfix_segments Little ex_data (cheader_enc Little ex_h) with Ok (d, offs) => Dyld_props.pull (cg_next Little d offs) 2 0 | _ => ([], true) end = ([ex_g], false).
Proof. vm_compute. reflexivity. Qed.
