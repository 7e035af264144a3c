(** Proofs about the Mach-O writer: the whole file. *)
From Coq Require Import Sorted.
From Verif Require Import Base Core_proofs Util_proofs Pod_proofs File_proofs Hash_proofs Rel_proofs Str_proofs Ar_proofs Kind_proofs Coff_spec CoffW_proofs CoffR_proofs CoffI_proofs.
From Verif Require Import Mach_proofs MachF_proofs MachP_proofs MachW_spec MachW_proofs MachWS_proofs MachWF_proofs MachWR_proofs.

Lemma reserve_ok off size al a b : pow2 al -> 0 <= off < 2 ^ 64 -> mw_reserve off size al = Ok (a, b) -> off <= a /\ b = a + size /\ b < 2 ^ 64.
Proof.
  intros Hp Ho E. unfold mw_reserve in E. destruct (align 64 off al) as [x| |] eqn:Ea; cbn [bind] in E; try discriminate. destruct (padd 64 x size) as [y| |] eqn:Eb; cbn [bind] in E; try discriminate. injection E as <- <-.
  apply align_ok in Ea; [|exact Hp|exact Ho]. apply padd_ok in Eb. lia.
Qed.
Lemma assert_ok b n u : mw_assert b n = Ok u -> n = zlen b.
Proof. unfold mw_assert. destruct (Z.eqb_spec n (zlen b)); [auto|discriminate]. Qed.
Lemma word_pow2 is64 : pow2 (mw_word is64).
Proof. destruct is64; [exists 3|exists 2]; (split; [lia|reflexivity]). Qed.
Lemma one_pow2 : pow2 1. Proof. exists 0. split; [lia|reflexivity]. Qed.

(** The parts of the file *)
Record parts (o : obj) (p : mopts) (is64 : bool) (c s : Z) := {
  pt_base : Z; pt_filesize : Z; pt_vmsize : Z; pt_lay : list (Z * Z); pt_ids : list (option (mpart * option Z)); pt_t : strtab; pt_t' : strtab;
  pt_rels : list (Z * Z); pt_reloff : Z; pt_symoff : Z; pt_strsize : Z; pt_strdata : bytes; pt_stroff : Z; pt_hs : list msec; pt_ns : list nlist;
  pt_dat : bytes; pt_rel : bytes; pt_pad : bytes }.
Arguments pt_base {o p is64 c s}. Arguments pt_filesize {o p is64 c s}. Arguments pt_vmsize {o p is64 c s}. Arguments pt_lay {o p is64 c s}. Arguments pt_ids {o p is64 c s}. Arguments pt_t {o p is64 c s}.
Arguments pt_t' {o p is64 c s}. Arguments pt_rels {o p is64 c s}. Arguments pt_reloff {o p is64 c s}. Arguments pt_symoff {o p is64 c s}. Arguments pt_strsize {o p is64 c s}. Arguments pt_strdata {o p is64 c s}. Arguments pt_stroff {o p is64 c s}.
Arguments pt_hs {o p is64 c s}. Arguments pt_ns {o p is64 c s}. Arguments pt_dat {o p is64 c s}. Arguments pt_rel {o p is64 c s}. Arguments pt_pad {o p is64 c s}.
Section Parts.
Context {o : obj} {p : mopts} (F : bytes) {is64 : bool} {c s : Z} (P : parts o p is64 c s).
Definition pt_locals := mw_part (pt_ids P) PLocal.
Definition pt_externals := mw_sort o (mw_part (pt_ids P) PExternal).
Definition pt_undefineds := mw_sort o (mw_part (pt_ids P) PUndefined).
Definition pt_order := pt_locals ++ pt_externals ++ pt_undefineds.
Definition pt_ncmds := match mo_build p with Some _ => 4 | None => 3 end.
Definition pt_hdr : bytes := mw_header is64 (o_endian o) c (match mo_cpusub p with Some x => x | None => s end) 1 pt_ncmds (pt_base P - mach_header_size is64)
  (if o_subsections o then Z.lor (match mo_flags p with Some f => f | None => 0 end) 8192 else match mo_flags p with Some f => f | None => 0 end).
Definition pt_g : mseg := {| g_name := zeros 16; g_vmaddr := 0; g_vmsize := pt_vmsize P; g_fileoff := pt_base P; g_filesize := pt_filesize P;
    g_maxprot := 7; g_initprot := 7; g_nsects := zlen (o_sections o); g_flags := 0 |}.
Definition pt_seg : bytes := mach_seg is64 (o_endian o) (mw_segment_size is64 (zlen (o_sections o))) pt_g ++ concat (map (mach_sec is64 (o_endian o)) (pt_hs P)).
Definition pt_bld : list bytes := match mo_build p with Some b => [mw_build (o_endian o) b] | None => [] end.
Definition pt_sym : bytes := mw_symtab (o_endian o) (pt_symoff P) (zlen pt_order) (pt_stroff P) (pt_strsize P).
Definition pt_dy : bytes := mw_dysymtab (o_endian o) (zlen pt_locals) (zlen pt_externals) (zlen pt_undefineds).
Definition pt_all := combine (o_sections o) (combine (pt_lay P) (pt_rels P)).
Definition pt_cmds : bytes := pt_seg ++ concat pt_bld ++ pt_sym ++ pt_dy.
Definition pt_symbols : bytes := concat (map (mach_nlist is64 (o_endian o)) (pt_ns P)).
Record parts_ok : Prop := {
  po_file : F = pt_hdr ++ pt_cmds ++ pt_dat P ++ pt_rel P ++ pt_pad P ++ pt_symbols ++ pt_strdata P;
  po_hdr : zlen pt_hdr = mach_header_size is64;
  po_base : zlen (pt_hdr ++ pt_cmds) = pt_base P;
  po_nsec : zlen (o_sections o) <= 255;
  po_nsym : zlen pt_order <= 2 ^ 24;
  po_cpu : mw_cpu (o_arch o) (mo_sub p) = Ok (c, s);
  po_seg : zlen pt_seg = mw_segment_size is64 (zlen (o_sections o));
  po_filesize : zlen (pt_dat P) = pt_filesize P;
  po_vmsize : is64 = false -> pt_vmsize P < 2 ^ 32;
  po_lay : exists l1, map_m (lay_data (pt_base P)) (o_sections o) 0 = Ok (l1, pt_filesize P) /\ map_m lay_bss (combine (o_sections o) l1) (pt_filesize P) = Ok (pt_lay P, pt_vmsize P);
  po_ids : map_m (mw_symbol (o_arch o)) (o_symbols o) st_new = Ok (pt_ids P, pt_t P);
  po_rels : map_m (lay_relocs is64) (o_sections o) (pt_base P + pt_filesize P) = Ok (pt_rels P, pt_reloff P);
  po_symoff : pt_reloff P <= pt_symoff P /\ zlen (pt_hdr ++ pt_cmds ++ pt_dat P ++ pt_rel P ++ pt_pad P) = pt_symoff P;
  po_str : mw_strtab is64 (pt_t P) = Ok (pt_strsize P, pt_strdata P, pt_t' P);
  po_stroff : zlen (pt_hdr ++ pt_cmds ++ pt_dat P ++ pt_rel P ++ pt_pad P ++ pt_symbols) = pt_stroff P;
  po_len : zlen F < 2 ^ 32;
  po_hs : Forall2 (fun x h => header_of x = Ok h) pt_all (pt_hs P);
  po_dat : bytes_ok (pt_dat P) /\ forall x, In x pt_all -> is_bss (se_kind (fst x)) = false -> holds (pt_hdr ++ pt_cmds ++ pt_dat P) (snd (fst (snd x))) (se_data (fst x));
  po_rel : bytes_ok (pt_rel P) /\ forall x, In x pt_all -> se_relocs (fst x) <> [] ->
    exists ms es, Forall2 (fun r x => reloc_of o pt_order r (fst x) (snd x)) (reloc_order ol_offset (se_relocs (fst x))) (combine ms es) /\
      length ms = length (se_relocs (fst x)) /\ length es = length (se_relocs (fst x)) /\ zlen (concat es) = total (se_relocs (fst x)) /\
      holds (pt_hdr ++ pt_cmds ++ pt_dat P ++ pt_rel P) (fst (snd (snd x))) (concat (map (mw_relocation (o_endian o)) (concat es)));
  po_pad : exists n, pt_pad P = zeros n;
  po_ns : Forall2 (fun i n => mw_nlist_of o (pt_lay P) (pt_ids P) (pt_t' P) i = Ok n) pt_order (pt_ns P) }.
End Parts.
Lemma mw_symbols_fold is64 o lay ids t order b b' : fold_m (mw_sym is64 o lay ids t) order b = Ok b' ->
  exists ns, Forall2 (fun i n => mw_nlist_of o lay ids t i = Ok n) order ns /\ b' = b ++ concat (map (mach_nlist is64 (o_endian o)) ns).
Proof.
  intros E. rewrite (fold_ext _ (fun x b => y <- mw_nlist_of o lay ids t x ;; Ok (b ++ mach_nlist is64 (o_endian o) y))) in E.
  - apply (fold_enc (mw_nlist_of o lay ids t) (mach_nlist is64 (o_endian o))). exact E.
  - intros i c. unfold mw_sym. destruct (mw_nlist_of o lay ids t i); cbn [bind]; [rewrite mw_nlist_eq|..]; reflexivity.
Qed.
Lemma filter_seg (b : bool) off (bl : list bytes) c1 c3 c4 : lc_cmd c1 = (if b then 25 else 1) -> lc_cmd c3 = 2 -> lc_cmd c4 = 11 ->
  filter (is_seg b) (c1 :: map (fun x => {| lc_cmd := 50; lc_offset := off; lc_data := x |}) bl ++ [c3; c4]) = [c1].
Proof.
  intros H1 H3 H4. assert (A1 : is_seg b c1 = true) by (unfold is_seg; rewrite H1; destruct b; reflexivity). assert (A3 : is_seg b c3 = false) by (unfold is_seg; rewrite H3; destruct b; reflexivity). assert (A4 : is_seg b c4 = false) by (unfold is_seg; rewrite H4; destruct b; reflexivity).
  cbn [filter]. rewrite A1. f_equal. rewrite filter_app. cbn [filter]. rewrite A3, A4, app_nil_r. induction bl as [|x bl IH]; [reflexivity|]. cbn [map filter]. replace (is_seg b _) with false by (destruct b; reflexivity). exact IH.
Qed.
Lemma filter_symtab (b : bool) off (bl : list bytes) c1 c3 c4 : lc_cmd c1 = (if b then 25 else 1) -> lc_cmd c3 = 2 -> lc_cmd c4 = 11 ->
  filter is_symtab (c1 :: map (fun x => {| lc_cmd := 50; lc_offset := off; lc_data := x |}) bl ++ [c3; c4]) = [c3].
Proof.
  intros H1 H3 H4. assert (A1 : is_symtab c1 = false) by (unfold is_symtab; rewrite H1; destruct b; reflexivity). assert (A3 : is_symtab c3 = true) by (unfold is_symtab; rewrite H3; reflexivity). assert (A4 : is_symtab c4 = false) by (unfold is_symtab; rewrite H4; reflexivity).
  cbn [filter]. rewrite A1. rewrite filter_app. cbn [filter]. rewrite A3, A4. induction bl as [|x bl IH]; [reflexivity|exact IH].
Qed.
Lemma write_inv o p F : mach_ok o p -> mach_write o p = Ok F ->
  exists w is64 c s (P : parts o p is64 c s), address_size (o_arch o) = Some w /\ is64 = (w =? 8) /\ parts_ok F P.
Proof.
  intros (HS & HY & LY & LS & _) E. unfold mach_write in E. destruct (address_size (o_arch o)) as [w|] eqn:Ew; cbn [unwrap bind] in E; [|discriminate].
  remember (w =? 8) as is64 eqn:E64. cbv zeta in E. assert (W : wrap_u 32 (zlen (o_sections o)) = zlen (o_sections o)) by (pose proof (zlen_nonneg (o_sections o)); apply wrap_u_id; lia). rewrite !W in E. clear W.
  destruct (Z.ltb_spec 255 (zlen (o_sections o))) as [|N1]; [discriminate|].
  set (base := mach_header_size is64 + mw_segment_size is64 (zlen (o_sections o)) + match mo_build p with Some _ => 24 | None => 0 end + 24 + 80) in E.
  assert (Bb : 0 <= base < 2 ^ 32) by (pose proof (zlen_nonneg (o_sections o)); unfold base, mw_segment_size; destruct is64; cbn [mach_header_size seg_size mach_sec_size]; destruct (mo_build p); lia).
  destruct (map_m (lay_data base) (o_sections o) 0) as [(l1 & filesize)| |] eqn:E1; cbn [bind] in E; try discriminate.
  destruct (lay_data_ok base _ 0 l1 filesize HS ltac:(lia) E1) as (A1 & _).
  destruct (mw_reserve base filesize 1) as [(b0 & off1)| |] eqn:E2; cbn [bind] in E; try discriminate. 
  assert (R1 : align 64 base 1 = Ok base).
  { destruct (align_exact 64 0 base ltac:(lia) ltac:(lia)) as (_ & HH). apply HH. split; [apply Z.divide_1_l|]. lia. }
  assert (off1 = base + filesize) as ->. { unfold mw_reserve in E2. rewrite R1 in E2. cbn [bind] in E2. destruct (padd 64 base filesize) as [x| |] eqn:Ex; cbn [bind] in E2; try discriminate. apply padd_ok in Ex. injection E2 as _ <-. tauto. }
  destruct (map_m lay_bss (combine (o_sections o) l1) filesize) as [(lay & vmsize)| |] eqn:E3; cbn [bind] in E; try discriminate.
  destruct (negb is64 && (4294967295 <? vmsize)) eqn:E4; [discriminate|].
  destruct (map_m (mw_symbol (o_arch o)) (o_symbols o) st_new) as [(ids & t)| |] eqn:E5; cbn [bind] in E; try discriminate.
  set (locals := mw_part ids PLocal) in E. set (externals := mw_sort o (mw_part ids PExternal)) in E. set (undefineds := mw_sort o (mw_part ids PUndefined)) in E. set (order := locals ++ externals ++ undefineds) in E.
  destruct (4294967295 <? zlen order); [discriminate|]. destruct (Z.ltb_spec 16777216 (zlen order)) as [|N2]; [discriminate|].
  destruct (map_m (lay_relocs is64) (o_sections o) (base + filesize)) as [(rels & off2)| |] eqn:E6; cbn [bind] in E; try discriminate.
  assert (Bf : 0 <= base + filesize < 2 ^ 64) by (apply reserve_ok in E2; [lia|apply one_pow2|lia]).
  destruct (lay_relocs_ok is64 _ _ rels off2 Bf E6) as (A2 & _).
  destruct (mw_reserve off2 (zlen order * nlist_size is64) (mw_word is64)) as [(symoff & off3)| |] eqn:E7; cbn [bind] in E; try discriminate. apply reserve_ok in E7; [|apply word_pow2|lia].
  destruct (mw_strtab is64 t) as [((strsize & strdata) & t')| |] eqn:E8; cbn [bind] in E; try discriminate.
  destruct (mw_reserve off3 strsize 1) as [(stroff & len)| |] eqn:E9; cbn [bind] in E; try discriminate.
  destruct (Z.ltb_spec 4294967295 len) as [|N3]; [discriminate|].
  destruct (mw_cpu (o_arch o) (mo_sub p)) as [(c & s)| |] eqn:E10; cbn [bind] in E; try discriminate. clear E2 E9.
  match type of E with context [mw_assert ?h (mach_header_size is64)] => set (hdr := h) in E end.
  destruct (mw_assert hdr (mach_header_size is64)) as [u1| |] eqn:E11; cbn [bind] in E; try discriminate. apply assert_ok in E11.
  set (all := combine (o_sections o) (combine lay rels)) in E.
  destruct (fold_m (mw_section_header is64 (o_endian o)) all _) as [buf1| |] eqn:E12 in E; cbn [bind] in E; try discriminate.
  apply headers_ok in E12. destruct E12 as (hs & Hhs & ->). rewrite mw_segment_eq in E. cbn [g_nsects] in E.
  match type of E with context [mach_seg is64 (o_endian o) ?n ?x] => set (g := x) in E; set (sg := mach_seg is64 (o_endian o) n g) in E end.
  set (hsb := concat (map (mach_sec is64 (o_endian o)) hs)) in E.
  destruct (match mo_build p with Some b => _ <- mw_assert ((hdr ++ sg) ++ hsb) (mach_header_size is64 + mw_segment_size is64 (zlen (o_sections o))) ;; Ok (((hdr ++ sg) ++ hsb) ++ mw_build (o_endian o) b) | None => Ok ((hdr ++ sg) ++ hsb) end) as [buf2| |] eqn:E13; cbn [bind] in E; try discriminate.
  set (bld := match mo_build p with Some b => [mw_build (o_endian o) b] | None => [] end).
  assert (E13' : buf2 = ((hdr ++ sg) ++ hsb) ++ concat bld).
  { unfold bld. destruct (mo_build p); [|cbn [concat]; rewrite app_nil_r; congruence]. destruct (mw_assert _ _); cbn [bind] in E13; try discriminate. cbn [concat]. rewrite app_nil_r. congruence. }
  match type of E with context [mw_assert buf2 ?k] => destruct (mw_assert buf2 k) as [u2| |] eqn:E14; cbn [bind] in E; try discriminate end. apply assert_ok in E14.
  set (sym := mw_symtab (o_endian o) symoff (zlen order) stroff strsize) in E.
  match type of E with context [mw_assert (buf2 ++ sym) ?k] => destruct (mw_assert (buf2 ++ sym) k) as [u3| |] eqn:E15; cbn [bind] in E; try discriminate end. apply assert_ok in E15.
  set (dy := mw_dysymtab (o_endian o) (zlen locals) (zlen externals) (zlen undefineds)) in E.
  destruct (mw_assert ((buf2 ++ sym) ++ dy) base) as [u4| |] eqn:E16; cbn [bind] in E; try discriminate. apply assert_ok in E16.
  destruct (fold_m mw_data all ((buf2 ++ sym) ++ dy)) as [buf3| |] eqn:E17; cbn [bind] in E; try discriminate.
  apply data_ok in E17. 2:{ apply Forall_forall. intros (x & y) Hx. apply in_combine_l in Hx. pose proof (proj1 (Forall_forall _ _) HS x Hx) as (_ & _ & H & _). exact H. }
  destruct E17 as (dat & -> & Bd & Hd).
  destruct (mw_assert (((buf2 ++ sym) ++ dy) ++ dat) (base + filesize)) as [u5| |] eqn:E18; cbn [bind] in E; try discriminate. apply assert_ok in E18.
  destruct (fold_m (mw_relocs o order) all (((buf2 ++ sym) ++ dy) ++ dat)) as [buf4| |] eqn:E19; cbn [bind] in E; try discriminate. apply relocs_ok in E19. destruct E19 as (rel & -> & Br & Hr).
  destruct (mw_resize ((((buf2 ++ sym) ++ dy) ++ dat) ++ rel) symoff) as [buf5| |] eqn:E20; cbn [bind] in E; try discriminate. apply resize_inv in E20. destruct E20 as (-> & L5).
  match type of E with context [zeros ?n] => set (pad := zeros n) in E, L5 end.
  destruct (fold_m (mw_sym is64 o lay ids t') order _) as [buf6| |] eqn:E21 in E; cbn [bind] in E; try discriminate. apply mw_symbols_fold in E21. destruct E21 as (ns & Hns & ->).
  match type of E with context [mw_assert ?k stroff] => destruct (mw_assert k stroff) as [u6| |] eqn:E22; cbn [bind] in E; try discriminate end. apply assert_ok in E22.
  match type of E with context [mw_assert ?k len] => destruct (mw_assert k len) as [u7| |] eqn:E23; cbn [bind] in E; try discriminate end. apply assert_ok in E23.
  assert (EF : F = hdr ++ ((sg ++ hsb) ++ concat bld ++ sym ++ dy) ++ dat ++ rel ++ pad ++ concat (map (mach_nlist is64 (o_endian o)) ns) ++ strdata).
  { rewrite E13' in E. rewrite <- !app_assoc in E. rewrite <- !app_assoc. congruence. }
  exists w, is64, c, s. exists (Build_parts o p is64 c s base filesize vmsize lay ids t t' rels off2 symoff strsize strdata stroff hs ns dat rel pad). split; [reflexivity|]. split; [exact E64|].
  rewrite E13' in *. clear E13 E13' E.
  assert (Lb : zlen (concat bld) = match mo_build p with Some _ => 24 | None => 0 end).
  { unfold bld. destruct (mo_build p) as [((x & y) & z)|]; [|reflexivity]. cbn [concat]. rewrite app_nil_r. unfold mw_build. rewrite !zlen_app, !zlen_write_u. reflexivity. }
  assert (Q : pt_hdr (Build_parts o p is64 c s base filesize vmsize lay ids t t' rels off2 symoff strsize strdata stroff hs ns dat rel pad) = hdr :> bytes) by reflexivity.
  assert (Q1 : pt_cmds (Build_parts o p is64 c s base filesize vmsize lay ids t t' rels off2 symoff strsize strdata stroff hs ns dat rel pad) = (sg ++ hsb) ++ concat bld ++ sym ++ dy :> bytes) by reflexivity.
  constructor; cbn [pt_base pt_filesize pt_vmsize pt_lay pt_ids pt_t pt_t' pt_rels pt_reloff pt_symoff pt_strsize pt_strdata pt_stroff pt_hs pt_ns pt_dat pt_rel pt_pad].
  - rewrite Q, Q1. exact EF.
  - rewrite Q. symmetry. exact E11.
  - rewrite Q, Q1. rewrite E16. rewrite <- !app_assoc. reflexivity.
  - exact N1.
  - unfold pt_order, pt_locals, pt_externals, pt_undefineds. cbn [pt_ids]. fold locals externals undefineds order. lia.
  - exact E10.
  - change (pt_seg _) with (sg ++ hsb). rewrite !zlen_app in *. lia.
  - rewrite !zlen_app in *. lia.
  - intros Q2. rewrite Q2 in E4. cbn [negb andb] in E4. lia.
  - exists l1. split; assumption.
  - exact E5.
  - exact E6.
  - rewrite Q, Q1. split; [lia|]. rewrite <- L5. rewrite <- !app_assoc. reflexivity.
  - exact E8.
  - rewrite Q, Q1. rewrite E22. unfold pt_symbols. cbn [pt_ns]. rewrite <- !app_assoc. reflexivity.
  - rewrite EF. rewrite <- !app_assoc in *. lia.
  - exact Hhs.
  - split; [exact Bd|]. rewrite Q, Q1. replace (hdr ++ ((sg ++ hsb) ++ concat bld ++ sym ++ dy) ++ dat) with ((((((hdr ++ sg) ++ hsb) ++ concat bld) ++ sym) ++ dy) ++ dat) by (rewrite <- !app_assoc; reflexivity). exact Hd.
  - split; [exact Br|]. rewrite Q, Q1. replace (hdr ++ ((sg ++ hsb) ++ concat bld ++ sym ++ dy) ++ dat ++ rel) with (((((((hdr ++ sg) ++ hsb) ++ concat bld) ++ sym) ++ dy) ++ dat) ++ rel) by (rewrite <- !app_assoc; reflexivity). exact Hr.
  - eexists. reflexivity.
  - exact Hns.
Qed.

Section File.
Context (o : obj) (p : mopts) (F : bytes) (is64 : bool) (c s : Z) (P : parts o p is64 c s) (OK : mach_ok o p) (PO : parts_ok F P).
Local Notation e := (o_endian o).
Lemma f_len : 0 <= pt_base P /\ 0 <= pt_filesize P /\ pt_base P + pt_filesize P <= pt_symoff P /\ pt_symoff P <= pt_stroff P /\ pt_stroff P + pt_strsize P = zlen F /\ zlen F < 2 ^ 32 /\
  pt_symoff P + zlen (pt_symbols P) = pt_stroff P /\ 0 <= pt_strsize P /\ 0 <= pt_reloff P <= pt_symoff P /\ zlen (pt_strdata P) = pt_strsize P.
Proof.
  pose proof (po_base F P PO) as H1. pose proof (po_filesize F P PO) as H2. destruct (po_symoff F P PO) as (H3 & H4). pose proof (po_stroff F P PO) as H5. pose proof (po_file F P PO) as H6. pose proof (po_len F P PO) as H7.
  assert (L : zlen (pt_strdata P) = pt_strsize P /\ 0 <= pt_strsize P).
  { destruct OK as (_ & HY & LY & _). destruct (mw_symbols_ok (o_arch o) (o_symbols o) st_new (pt_ids P) (pt_t P) st_new_inv) as (T1 & _ & _ & T2); [apply Forall_forall; intros y Hy; exact (proj1 (proj1 (Forall_forall _ _) HY y Hy))|change (zlen (st_strings st_new)) with 0; lia|exact (po_ids F P PO)|].
    pose proof (strtab_ok is64 (pt_t P) _ _ _ T1 T2 (po_str F P PO)) as (S1 & _ & S2 & _). split; [exact S1|lia]. }
  assert (L6 : zlen F = pt_stroff P + pt_strsize P) by (rewrite H6; rewrite <- H5; rewrite !zlen_app; lia).
  pose proof (zlen_nonneg (pt_hdr P ++ pt_cmds P)). pose proof (zlen_nonneg (pt_dat P)). pose proof (zlen_nonneg (pt_rel P)). pose proof (zlen_nonneg (pt_pad P)). pose proof (zlen_nonneg (pt_symbols P)).
  rewrite !zlen_app in *. assert (RR : pt_base P + pt_filesize P <= pt_reloff P).
  { destruct (lay_relocs_ok is64 _ (pt_base P + pt_filesize P) _ _ ltac:(lia) (po_rels F P PO)) as (R & _). lia. }
  repeat (split; [lia|]). lia.
Qed.
Lemma f_section i x : zget (o_sections o) i = Some x -> exists a off ro nr h, zget (pt_lay P) i = Some (a, off) /\ zget (pt_rels P) i = Some (ro, nr) /\ zget (pt_hs P) i = Some h /\ In (x, ((a, off), (ro, nr))) (pt_all P) /\
  placed (pt_base P) x (a, off) 0 (pt_vmsize P) /\ (se_relocs x = [] \/ 0 <= ro) /\ 0 <= ro /\ nr = total (se_relocs x) /\
  msec_ok is64 h /\ ms_name h = se_name x /\ ms_segment h = se_segment x /\ x_addr h = a /\ x_size h = se_size x /\ x_offset h = off /\ ms_align h = se_align x /\ x_reloff h = ro /\ x_nreloc h = nr /\
  flags_of x (x_flags h) (x_reserved2 h).
Proof.
  intros Hi. pose proof f_len as (L1 & L2 & L3 & L4 & L5 & L6 & L7 & L8 & L9 & _). destruct OK as (HS & _). pose proof (Forall_zget _ _ _ _ HS Hi) as HX.
  destruct (po_lay F P PO) as (l1 & E1 & E2). destruct (layout_ok _ _ _ _ _ _ HS E1 E2) as (A1 & A2 & A3 & A4 & _). destruct (A4 _ _ Hi) as ((a & off) & Hp & Pl & Hb).
  destruct (lay_relocs_ok is64 _ (pt_base P + pt_filesize P) _ _ ltac:(lia) (po_rels F P PO)) as (R1 & R2 & R3). destruct (R3 _ _ Hi) as ((ro & nr) & Hr & N1 & N2 & N3 & N4). cbn [fst snd] in *.
  assert (Hall : zget (pt_all P) i = Some (x, ((a, off), (ro, nr)))) by (apply zget_combine; [exact Hi|apply zget_combine; assumption]).
  destruct (Forall2_zget_l _ _ _ _ _ (po_hs F P PO) Hall) as (h & Hh & Eh). exists a, off, ro, nr, h.
  assert (Ro : 0 <= ro /\ ro <= pt_reloff P) by (destruct (se_relocs x) eqn:Er; [specialize (N3 eq_refl); inversion N3; subst; lia|specialize (N4 ltac:(discriminate)); lia]).
  split; [exact Hp|]. split; [exact Hr|]. split; [exact Hh|]. split; [eapply zget_In; exact Hall|]. split; [exact Pl|]. split; [right; lia|]. split; [lia|]. split; [congruence|].
  destruct Pl as [P1 P2 P3 P4]. cbn [fst snd] in *. pose proof HX as (_ & _ & _ & Sz & _). pose proof (po_vmsize F P PO) as V.
  apply header_fields; try assumption.
  - unfold mword_ok. destruct is64; [lia|]. specialize (V eq_refl). lia.
  - unfold mword_ok. destruct is64; [lia|]. specialize (V eq_refl). lia.
  - unfold u32_ok. destruct (is_bss (se_kind x)); lia.
  - unfold u32_ok. lia.
Qed.
Lemma f_hs_len : zlen (pt_hs P) = zlen (o_sections o).
Proof.
  rewrite (Forall2_zlen _ _ _ (po_hs F P PO)). unfold pt_all. destruct OK as (HS & _). destruct (po_lay F P PO) as (l1 & E1 & E2). destruct (layout_ok _ _ _ _ _ _ HS E1 E2) as (_ & _ & A3 & _).
  pose proof f_len. destruct (lay_relocs_ok is64 _ (pt_base P + pt_filesize P) _ _ ltac:(lia) (po_rels F P PO)) as (_ & R2 & _). rewrite !zlen_combine, A3, R2. lia.
Qed.
Lemma f_hs_ok : Forall (msec_ok is64) (pt_hs P).
Proof.
  apply Forall_forall. intros h Hh. apply In_zget in Hh. destruct Hh as (i & Hi). pose proof (zget_Some_lt _ _ _ Hi) as L. rewrite f_hs_len in L. destruct (zget_lt_Some _ _ L) as (x & Hx).
  destruct (f_section i x Hx) as (a & off & ro & nr & h' & _ & _ & Hh & _ & _ & _ & _ & _ & K & _). rewrite Hi in Hh. injection Hh as <-. exact K.
Qed.
Lemma f_names : tinv (pt_t P) /\ st_in_order (pt_t P) = false /\ Forall2 (fun y x => named (pt_t P) y x (o_arch o)) (o_symbols o) (pt_ids P).
Proof.
  destruct OK as (_ & HY & LY & _). destruct (mw_symbols_ok (o_arch o) (o_symbols o) st_new (pt_ids P) (pt_t P) st_new_inv) as (T1 & T2 & _ & T3); [apply Forall_forall; intros y Hy; exact (proj1 (proj1 (Forall_forall _ _) HY y Hy))|change (zlen (st_strings st_new)) with 0; lia|exact (po_ids F P PO)|].
  split; [exact T1|]. split; [exact T3|exact T2].
Qed.
Lemma f_symbol k i : zget (pt_order P) k = Some i -> exists y n, zget (o_symbols o) i = Some y /\ zget (pt_ns P) k = Some n /\ nlist_ok is64 (norm is64 n) /\
    match sy_section y with YCommon => n_value n = sy_size y | YSec id => exists x, zget (pt_lay P) id = Some x /\ n_value n = fst x + sy_value y | _ => n_value n = sy_value y end /\
    n_sect n = match sy_section y with YSec id => id + 1 | _ => 0 end /\ mw_symbol_flags y = Ok (n_type n, n_desc n) /\
    strtab_get (Some F) (pt_stroff P) (pt_stroff P + pt_strsize P) (n_strx n) = Ok (sy_name y).
Proof.
  intros Hk. destruct (Forall2_zget_l _ _ _ _ _ (po_ns F P PO) Hk) as (n & Hn & En). destruct f_names as (T1 & T2 & T3). pose proof (strtab_ok is64 (pt_t P) _ _ _ T1 T2 (po_str F P PO)) as (S1 & S2 & S3 & S4 & S5 & S6).
  pose proof f_len as (L1 & L2 & L3 & L4 & L5 & L6 & L7 & L8 & L9 & L10).
  apply (nlist_of_ok is64) in En; [|apply OK|apply (po_nsec F P PO)|exact S6]. destruct En as (y & Hy & K1 & K2 & K3 & K4 & K5). exists y, n. split; [exact Hy|]. split; [exact Hn|]. split; [exact K1|]. split; [exact K2|]. split; [exact K3|]. split; [exact K5|].
  assert (LOC : located (pt_strdata P) (n_strx n) (sy_name y)).
  { destruct (Forall2_zget_l _ _ _ _ _ T3 Hy) as (x & Hx & Nx). rewrite Hx in K4. 
    assert (IN : In i (pt_order P)) by (eapply zget_In; exact Hk). assert (EX : exists q id, x = Some (q, id)).
    { unfold pt_order, pt_locals, pt_externals, pt_undefineds, mw_sort in IN. rewrite !in_app_iff, !sort_in, !mw_part_in in IN. destruct IN as [(id & Q)|[(id & Q)|(id & Q)]]; rewrite Hx in Q; injection Q as ->; eauto. }
    destruct EX as (q & id & ->). cbn [named] in Nx. destruct Nx as (_ & _ & Nn). destruct id as [id|].
    - destruct (S5 _ _ Nn) as (off & Ho & _ & Lo). rewrite K4 in Ho. injection Ho as <-. exact Lo.
    - rewrite Nn, K4. exact S4. }
  pose proof (po_file F P PO) as EF. pose proof (po_stroff F P PO) as ES. rewrite EF. rewrite <- ES, <- S1.
  replace (pt_hdr P ++ pt_cmds P ++ pt_dat P ++ pt_rel P ++ pt_pad P ++ pt_symbols P ++ pt_strdata P) with ((pt_hdr P ++ pt_cmds P ++ pt_dat P ++ pt_rel P ++ pt_pad P ++ pt_symbols P) ++ pt_strdata P ++ []) by (rewrite app_nil_r, <- !app_assoc; reflexivity).
  assert (YN : ~ In 0 (sy_name y)) by (destruct OK as (_ & HY & _); exact (proj2 (proj1 (Forall_zget _ _ _ _ HY Hy)))). pose proof (located_bound _ _ _ LOC) as LB. pose proof (zlen_nonneg (sy_name y)).
  apply located_get; [exact LOC|exact YN|lia|]. rewrite ES. lia.
Qed.
Lemma f_ns_len : zlen (pt_ns P) = zlen (pt_order P).
Proof. exact (Forall2_zlen _ _ _ (po_ns F P PO)). Qed.

(** * The reader *)
Definition w_h : mhdr := {| mh_cpu := c; mh_sub := match mo_cpusub p with Some x => x | None => s end; mh_file := 1; mh_n := pt_ncmds (p := p); mh_sz := pt_base P - mach_header_size is64;
  mh_fl := if o_subsections o then Z.lor (match mo_flags p with Some f => f | None => 0 end) 8192 else match mo_flags p with Some f => f | None => 0 end |}.
Definition w_r : bytes := if is64 then write_u e 4 0 else [].
Lemma hdr_eq : pt_hdr P = mach_hdr is64 e w_h w_r.
Proof. unfold pt_hdr, mw_header, mach_hdr, w_h, w_r. cbn [mh_cpu mh_sub mh_file mh_n mh_sz mh_fl]. destruct is64, e; reflexivity. Qed.
Definition w_xs : list msint := map (fun h => {| xi_kind := ms_kind (ro_of w_h (pt_g P)) h; xi_sec := h; xi_offset := x_offset h |}) (pt_hs P).
Definition w_t : msymtab := {| mt_symbols := map (norm is64) (pt_ns P); mt_strings := (Some F, pt_stroff P, pt_stroff P + pt_strsize P) |}.
Definition w_f : mfile := {| mf_64 := is64; mf_endian := e; mf_header := mach_hdr is64 e w_h w_r; mf_segments := [pt_g P]; mf_sections := w_xs; mf_symbols := w_t; mf_data := F |}.
Definition w_o1 := table_size is64 + zlen (pt_seg P).
Definition w_o2 := w_o1 + zlen (concat (pt_bld (o := o) (p := p))).
Definition w_c1 : lcmd := {| lc_cmd := if is64 then 25 else 1; lc_offset := table_size is64; lc_data := pt_seg P |}.
Definition w_cb : list lcmd := map (fun b => {| lc_cmd := 50; lc_offset := w_o1; lc_data := b |}) (pt_bld (o := o) (p := p)).
Definition w_c3 : lcmd := {| lc_cmd := 2; lc_offset := w_o2; lc_data := pt_sym P |}.
Definition w_c4 : lcmd := {| lc_cmd := 11; lc_offset := w_o2 + zlen (pt_sym P); lc_data := pt_dy P |}.
Definition w_l : list lcmd := w_c1 :: w_cb ++ [w_c3; w_c4].
Lemma sym_len : zlen (pt_sym P) = 24. Proof. unfold pt_sym, mw_symtab. rewrite !zlen_app, !zlen_write_u. reflexivity. Qed.
Lemma dy_len : zlen (pt_dy P) = 80. Proof. unfold pt_dy, mw_dysymtab. rewrite !zlen_app, !zlen_write_u, zlen_zeros by lia. reflexivity. Qed.
Lemma w_bytes : bytes_ok F.
Proof.
  rewrite (po_file F P PO). destruct (po_dat F P PO) as (B1 & _). destruct (po_rel F P PO) as (B2 & _). destruct (po_pad F P PO) as (n & B3). destruct f_names as (T1 & T2 & T3). pose proof (strtab_ok is64 (pt_t P) _ _ _ T1 T2 (po_str F P PO)) as (_ & B4 & _).
  assert (HB : bytes_ok (pt_hdr P)) by (unfold pt_hdr, mw_header; repeat (apply bytes_ok_app; split; [apply bytes_ok_write_u|]); destruct is64; [apply bytes_ok_write_u|constructor]).
  assert (WB : forall v, bytes_ok (word is64 e v)) by (intros v; apply bytes_ok_write_u).
  assert (SB : bytes_ok (pt_seg P)).
  { unfold pt_seg. apply bytes_ok_app. split.
    - unfold mach_seg, pt_g. cbn [g_name g_vmaddr g_vmsize g_fileoff g_filesize g_maxprot g_initprot g_nsects g_flags]. repeat (apply bytes_ok_app; split; [first [apply bytes_ok_write_u|apply bytes_ok_zeros|apply WB]|]). apply bytes_ok_write_u.
    - apply Forall_concat, Forall_map. eapply Forall_impl; [|exact f_hs_ok]. intros h (H1 & H2 & H3 & H4 & _). unfold mach_sec. repeat (apply bytes_ok_app; split; [first [assumption|apply bytes_ok_write_u|apply WB]|]). destruct is64; [apply bytes_ok_write_u|constructor]. }
  assert (CB : bytes_ok (pt_cmds P)).
  { unfold pt_cmds. apply bytes_ok_app. split; [exact SB|]. apply bytes_ok_app. split; [|apply bytes_ok_app; split].
    - unfold pt_bld. destruct (mo_build p) as [((x & y) & z)|]; [|constructor]. cbn [concat]. rewrite app_nil_r. unfold mw_build. repeat (apply bytes_ok_app; split; [apply bytes_ok_write_u|]). apply bytes_ok_write_u.
    - unfold pt_sym, mw_symtab. repeat (apply bytes_ok_app; split; [apply bytes_ok_write_u|]). apply bytes_ok_write_u.
    - unfold pt_dy, mw_dysymtab. repeat (apply bytes_ok_app; split; [apply bytes_ok_write_u|]). apply bytes_ok_zeros. }
  assert (NB : bytes_ok (pt_symbols P)).
  { unfold pt_symbols. apply Forall_concat, Forall_map. apply Forall_forall. intros n0 Hn. apply In_zget in Hn. destruct Hn as (k & Hk). pose proof (zget_Some_lt _ _ _ Hk) as L. rewrite f_ns_len in L. destruct (zget_lt_Some _ _ L) as (i & Hi).
    destruct (f_symbol k i Hi) as (y & n1 & _ & Hn1 & (_ & N2 & N3 & _) & _). rewrite Hk in Hn1. injection Hn1 as <-. cbn [norm n_type n_sect] in N2, N3. unfold mach_nlist. apply bytes_ok_app. split; [apply bytes_ok_write_u|]. apply bytes_ok_app. split; [constructor; [exact N2|constructor]|]. apply bytes_ok_app. split; [constructor; [exact N3|constructor]|]. apply bytes_ok_app. split; [apply bytes_ok_write_u|apply WB]. }
  rewrite B3. repeat (apply bytes_ok_app; split; [first [assumption|apply bytes_ok_zeros]|]). exact B4.
Qed.
Lemma w_cmds : commands e (table_size is64) w_l (pt_cmds P) [].
Proof.
  pose proof f_len as FL. pose proof (zlen_nonneg (pt_dat P)).
  assert (LC : zlen (pt_cmds P) < 2 ^ 32). { pose proof (po_base F P PO) as H1. rewrite zlen_app in H1. pose proof (zlen_nonneg (pt_hdr P)). lia. }
  assert (L1 : zlen (pt_seg P) < 2 ^ 32) by (unfold pt_cmds in LC; rewrite zlen_app in LC; pose proof (zlen_nonneg (concat (pt_bld (o := o) (p := p)) ++ pt_sym P ++ pt_dy P)); lia). pose proof (zlen_nonneg (pt_seg P)).
  unfold w_l, pt_cmds. change (pt_seg P) with (lc_data w_c1) at 1. apply cmds_cons; [|reflexivity|].
  - cbn [lc_data lc_cmd w_c1]. eexists. split; [|unfold u32_ok; split; [destruct is64; lia|lia]]. rewrite (po_seg F P PO) at 1. unfold pt_seg, mach_seg. rewrite <- !app_assoc. reflexivity.
  - change (table_size is64 + zlen (lc_data w_c1)) with w_o1.
    assert (T : commands e w_o2 [w_c3; w_c4] (pt_sym P ++ pt_dy P) []).
    { change (pt_sym P) with (lc_data w_c3) at 1. apply cmds_cons; [|reflexivity|].
      - eexists. cbn [lc_data lc_cmd w_c3]. rewrite sym_len. split; [reflexivity|]. unfold u32_ok; lia.
      - rewrite <- (app_nil_r (pt_dy P)). change (pt_dy P) with (lc_data w_c4) at 1. apply cmds_cons; [|reflexivity|constructor]. eexists. cbn [lc_data lc_cmd w_c4]. rewrite dy_len. split; [reflexivity|]. unfold u32_ok; lia. }
    unfold w_cb, pt_bld in *. destruct (mo_build p) as [b|] eqn:Eb.
    + cbn [map concat app]. rewrite app_nil_r. apply (cmds_cons e w_o1 {| lc_cmd := 50; lc_offset := w_o1; lc_data := mw_build e b |}); [|reflexivity|].
      * assert (LB : zlen (mw_build e b) = 24) by (destruct b as ((x & y) & z); unfold mw_build; rewrite !zlen_app, !zlen_write_u; reflexivity). destruct b as ((x & y) & z). eexists. cbn [lc_data lc_cmd]. rewrite LB. split; [reflexivity|unfold u32_ok; lia].
      * cbn [lc_data]. replace (w_o1 + zlen (mw_build e b)) with w_o2; [exact T|]. unfold w_o2, pt_bld. rewrite Eb. cbn [concat]. rewrite app_nil_r. reflexivity.
    + cbn [map concat app]. replace w_o1 with w_o2; [exact T|]. unfold w_o2, pt_bld. rewrite Eb. cbn [concat]. change (zlen (@nil Z)) with 0. lia.
Qed.
Lemma w_hdr_ok : mhdr_ok w_h.
Proof.
  destruct OK as (_ & _ & _ & _ & O1 & O2 & _). pose proof (cpu_ok _ _ _ _ (po_cpu F P PO)) as (_ & _ & _ & _ & C1 & C2). pose proof f_len as FL. pose proof (po_base F P PO) as H1. pose proof (po_hdr F P PO) as H2. rewrite zlen_app in H1. pose proof (zlen_nonneg (pt_cmds P)). pose proof (zlen_nonneg (pt_hdr P)). assert (MH : 0 <= mach_header_size is64) by (rewrite <- H2; assumption).
  unfold mhdr_ok, w_h. cbn [mh_cpu mh_sub mh_file mh_n mh_sz mh_fl]. split; [exact C1|]. split; [destruct (mo_cpusub p) as [x|]; [exact (O1 x eq_refl)|exact C2]|]. split; [unfold u32_ok; lia|]. split; [unfold u32_ok, pt_ncmds; destruct (mo_build p); lia|]. split; [unfold u32_ok; lia|].
  assert (B : u32_ok (match mo_flags p with Some f => f | None => 0 end)) by (destruct (mo_flags p) as [x|]; [exact (O2 x eq_refl)|unfold u32_ok; lia]). destruct (o_subsections o); [|exact B]. unfold u32_ok in *. apply lor_bound; lia.
Qed.
Lemma w_hdr_len : zlen (mach_hdr is64 e w_h w_r) = table_size is64.
Proof. rewrite <- hdr_eq, (po_hdr F P PO). destruct is64; reflexivity. Qed.
Lemma w_holds_hdr : holds F 0 (mach_hdr is64 e w_h w_r).
Proof. rewrite <- hdr_eq. eexists [], _. split; [exact (po_file F P PO)|reflexivity]. Qed.
Lemma w_holds_cmds : holds F (table_size is64) (pt_cmds P).
Proof. rewrite <- w_hdr_len, <- hdr_eq. eexists _, _. split; [exact (po_file F P PO)|reflexivity]. Qed.
Lemma w_cmds_len : zlen (pt_cmds P) = mh_sz w_h.
Proof. cbn [mh_sz w_h]. pose proof (po_base F P PO) as H1. rewrite zlen_app, (po_hdr F P PO) in H1. lia. Qed.
Lemma w_readable : readable e (mh_n w_h) (table_size is64) (pt_cmds P) w_l true.
Proof. exists []. split; [exact w_cmds|]. unfold w_l, w_cb, pt_bld, w_h, pt_ncmds. cbn [mh_n]. destruct (mo_build p); reflexivity. Qed.
Lemma w_seg_ok : seg_ok is64 (pt_g P).
Proof.
  pose proof f_len as (L1 & L2 & L3 & L4 & L5 & L6 & L7 & L8 & L9 & L10). destruct OK as (HS & _). destruct (po_lay F P PO) as (l1 & E1 & E2). destruct (layout_ok _ _ _ _ _ _ HS E1 E2) as (A1 & A2 & _). pose proof (po_vmsize F P PO) as V. pose proof (po_nsec F P PO) as N. pose proof (zlen_nonneg (o_sections o)).
  unfold seg_ok, pt_g, mword_ok, u32_ok. cbn [g_name g_vmaddr g_vmsize g_fileoff g_filesize g_maxprot g_initprot g_nsects g_flags]. split; [apply zlen_zeros; lia|]. split; [apply bytes_ok_zeros|].
  assert (V' : is64 = false -> pt_vmsize P < 2 ^ 32) by exact V. clear V. destruct is64; [repeat (split; [lia|]); lia|]. specialize (V' eq_refl). repeat (split; [lia|]); lia.
Qed.
Lemma w_symbols_ok : Forall (nlist_ok is64) (map (norm is64) (pt_ns P)).
Proof.
  apply Forall_map, Forall_forall. intros n0 Hn. apply In_zget in Hn. destruct Hn as (k & Hk). pose proof (zget_Some_lt _ _ _ Hk) as L. rewrite f_ns_len in L. destruct (zget_lt_Some _ _ L) as (i & Hi).
  destruct (f_symbol k i Hi) as (y & n1 & _ & Hn1 & K & _). rewrite Hk in Hn1. injection Hn1 as <-. exact K.
Qed.
Lemma w_symbols_holds : holds F (pt_symoff P) (concat (map (mach_nlist is64 e) (map (norm is64) (pt_ns P)))).
Proof.
  rewrite map_map, (map_ext _ (mach_nlist is64 e)) by (intros; apply mach_nlist_norm). destruct (po_symoff F P PO) as (_ & <-). exists (pt_hdr P ++ pt_cmds P ++ pt_dat P ++ pt_rel P ++ pt_pad P), (pt_strdata P). split; [|reflexivity].
  rewrite (po_file F P PO). rewrite <- !app_assoc. reflexivity.
Qed.
Lemma w_of : mach_of is64 F w_f.
Proof.
  pose proof f_len as (L1 & L2 & L3 & L4 & L5 & L6 & L7 & L8 & L9 & L10). pose proof (zlen_nonneg (pt_order P)). pose proof (zlen_nonneg (pt_symbols P)). pose proof (po_nsym F P PO).
  exists w_h, w_r, w_l, [(pt_g P, w_xs)], [w_t]. cbn [mf_endian w_f]. split; [exact w_hdr_ok|]. split; [exact w_hdr_len|]. split; [exact w_holds_hdr|].
  split; [left; exists (pt_cmds P), true; split; [exact w_holds_cmds|]; split; [exact w_cmds_len|exact w_readable]|].
  assert (ZN : zlen (map (norm is64) (pt_ns P)) = zlen (pt_order P)) by (rewrite <- f_ns_len; unfold zlen; rewrite map_length; reflexivity).
  split; [|split; [|split; [reflexivity|]; split; [reflexivity|]; split; [reflexivity|]; split; [cbn [map snd concat]; rewrite app_nil_r; reflexivity|]; split; reflexivity]].
  - assert (FI : filter (is_seg is64) w_l = [w_c1]) by exact (filter_seg is64 w_o1 (pt_bld (o := o) (p := p)) w_c1 w_c3 w_c4 eq_refl eq_refl eq_refl). rewrite FI. constructor; [|constructor]. exists (pt_hs P). cbn [fst snd]. split.
    + split; [exact w_seg_ok|]. split; [exact f_hs_ok|]. split; [rewrite f_hs_len; reflexivity|]. exists []. cbn [lc_data w_c1]. rewrite app_nil_r, (po_seg F P PO) at 1. reflexivity.
    + split; [unfold w_xs; rewrite map_map; apply map_id|]. split.
      * unfold segment_offsets. change (g_fileoff (pt_g P)) with (pt_base P). change (g_filesize (pt_g P)) with (pt_filesize P). rewrite Z.mod_small by lia. replace (pt_base P + pt_filesize P <? 2 ^ 32) with true by lia. unfold w_xs. rewrite map_map. reflexivity.
      * unfold w_xs. apply Forall_map. apply Forall_forall. intros h _. cbn [xi_sec xi_kind]. apply kind_iff. reflexivity.
  - assert (FI : filter is_symtab w_l = [w_c3]) by exact (filter_symtab is64 w_o1 (pt_bld (o := o) (p := p)) w_c1 w_c3 w_c4 eq_refl eq_refl eq_refl). rewrite FI. constructor; [|constructor].
    exists (pt_symoff P), (pt_stroff P), (pt_strsize P), []. cbn [lc_data w_c3 mt_symbols mt_strings w_t]. rewrite ZN, sym_len. split; [unfold pt_sym, mw_symtab; rewrite app_nil_r; reflexivity|].
    unfold u32_ok. split; [lia|]. split; [lia|]. split; [lia|]. split; [lia|]. split; [exact w_symbols_ok|]. split; [intros _; exact w_symbols_holds|reflexivity].
Qed.
Lemma w_parse : mach_parse is64 F = Ok w_f.
Proof. pose proof f_len as FL. apply mach_iff; [split; [exact w_bytes|lia]|exact w_of]. Qed.
Lemma w_header : reads_header o p w_f.
Proof.
  unfold reads_header. cbn [mf_endian mf_header w_f]. destruct (hdr_enc is64 e w_h w_r w_hdr_ok) as (Eh & _). set (hb := mach_hdr is64 e w_h w_r) in *. pose proof (f_equal mh_cpu Eh) as H1. pose proof (f_equal mh_sub Eh) as H2. pose proof (f_equal mh_file Eh) as H3. pose proof (f_equal mh_fl Eh) as H4.
  unfold mhdr_of in H1, H2, H3, H4. cbn [mh_cpu mh_sub mh_file mh_n mh_sz mh_fl w_h] in H1, H2, H3, H4. rewrite H1, H2, H3, H4. pose proof (cpu_ok _ _ _ _ (po_cpu F P PO)) as (C1 & C2 & _ & C3 & _).
  split; [reflexivity|]. split; [exact C1|]. split; [exact C2|]. split; [destruct (mo_cpusub p); [reflexivity|exact C3]|]. split; [reflexivity|]. destruct (o_subsections o); [reflexivity|]. rewrite Z.lor_0_r. reflexivity.
Qed.
Lemma w_sections : Forall2 (reads_section F) w_xs (o_sections o).
Proof.
  pose proof f_len as (L1 & L2 & L3 & L4 & L5 & L6 & L7 & L8 & L9 & L10).
  assert (K : forall hs ss, zlen hs = zlen ss -> (forall i h x, zget hs i = Some h -> zget ss i = Some x -> reads_section F {| xi_kind := ms_kind (ro_of w_h (pt_g P)) h; xi_sec := h; xi_offset := x_offset h |} x) ->
    Forall2 (reads_section F) (map (fun h => {| xi_kind := ms_kind (ro_of w_h (pt_g P)) h; xi_sec := h; xi_offset := x_offset h |}) hs) ss).
  { induction hs as [|h hs IH]; intros [|x ss] L R; try (unfold zlen in L; cbn in L; lia); cbn [map]; constructor; [apply (R 0); apply zget_0|]. apply IH; [rewrite !zlen_cons in L; lia|]. intros i h' x' H1 H2. apply (R (i + 1)); (pose proof (zget_Some_lt _ _ _ H1); rewrite zget_S by lia; replace (i + 1 - 1) with i by lia; assumption). }
  unfold w_xs. apply K; [exact f_hs_len|]. intros i h x Hh Hx. destruct (f_section i x Hx) as (a & off & ro & nr & h' & _ & _ & Hh' & Hin & Pl & _ & _ & _ & Mk & F1 & F2 & F3 & F4 & F5 & F6 & F7 & F8 & F9). rewrite Hh in Hh'. injection Hh' as <-.
  unfold reads_section. cbn [xi_sec xi_offset]. split; [exact F1|]. split; [exact F2|]. split; [exact F4|]. split; [exact F6|]. split; [rewrite F3; exact (pl_div _ _ _ _ _ Pl)|]. split; [exact F9|]. unfold ms_data. rewrite has_data_iff. split; intros Hd; rewrite Hd; [reflexivity|].
  intros Hb. destruct OK as (HS & _). pose proof (Forall_zget _ _ _ _ HS Hx) as (_ & _ & _ & _ & _ & Sz & _). specialize (Sz Hb). rewrite F4, F5. destruct (po_dat F P PO) as (_ & D). specialize (D _ Hin Hb). cbn [fst snd] in D.
  apply holds_read_bytes_at; [|exact Sz]. rewrite (po_file F P PO). rewrite (app_assoc (pt_hdr P)), (app_assoc (pt_hdr P ++ pt_cmds P)). rewrite <- (app_assoc (pt_hdr P)). apply holds_ext. exact D.
Qed.
Lemma w_disjoint : disjoint_sections (g_vmsize (pt_g P)) (map xi_sec w_xs).
Proof.
  assert (E : map xi_sec w_xs = pt_hs P) by (unfold w_xs; rewrite map_map; apply map_id). rewrite E. cbn [g_vmsize pt_g].
  assert (G : forall i h, zget (pt_hs P) i = Some h -> exists x a, zget (o_sections o) i = Some x /\ zget (pt_lay P) i = Some a /\ x_addr h = fst a /\ x_size h = se_size x /\ placed (pt_base P) x a 0 (pt_vmsize P)).
  { intros i h Hi. pose proof (zget_Some_lt _ _ _ Hi) as L. rewrite f_hs_len in L. destruct (zget_lt_Some _ _ L) as (x & Hx). destruct (f_section i x Hx) as (a & off & ro & nr & h' & Hl & _ & Hh & _ & Pl & _ & _ & _ & _ & _ & _ & F3 & F4 & _). rewrite Hi in Hh. injection Hh as <-.
    exists x, (a, off). split; [exact Hx|]. split; [exact Hl|]. split; [exact F3|]. split; [exact F4|exact Pl]. }
  split.
  - intros h Hh. apply In_zget in Hh. destruct Hh as (i & Hi). destruct (G i h Hi) as (x & a & _ & _ & -> & -> & [P1 P2 P3 P4]). lia.
  - intros i j h k Hi Hj N. destruct (G i h Hi) as (x & a & Hx & Ha & -> & -> & _). destruct (G j k Hj) as (y & b & Hy & Hb & -> & -> & _). destruct OK as (HS & _). destruct (po_lay F P PO) as (l1 & E1 & E2). destruct (layout_ok _ _ _ _ _ _ HS E1 E2) as (_ & _ & _ & _ & A5).
    exact (A5 i j x y a b N Hx Hy Ha Hb).
Qed.
Lemma w_order : symbol_order o (pt_locals P) (pt_externals P) (pt_undefineds P).
Proof. destruct f_names as (_ & _ & T). exact (order_spec o _ _ T). Qed.
Lemma w_symbols : Forall2 (fun n i => exists y, zget (o_symbols o) i = Some y /\ reads_symbol is64 w_f n y /\ (sy_flags y = None -> reports_symbol n y)) (mt_symbols (mf_symbols w_f)) (pt_order P).
Proof.
  cbn [w_f mf_symbols w_t mt_symbols].
  assert (K : forall ns l, zlen ns = zlen l -> (forall k n i, zget ns k = Some n -> zget l k = Some i -> exists y, zget (o_symbols o) i = Some y /\ reads_symbol is64 w_f (norm is64 n) y /\ (sy_flags y = None -> reports_symbol (norm is64 n) y)) ->
    Forall2 (fun n i => exists y, zget (o_symbols o) i = Some y /\ reads_symbol is64 w_f n y /\ (sy_flags y = None -> reports_symbol n y)) (map (norm is64) ns) l).
  { induction ns as [|h hs IH]; intros [|x ss] L R; try (unfold zlen in L; cbn in L; lia); cbn [map]; constructor; [apply (R 0); apply zget_0|]. apply IH; [rewrite !zlen_cons in L; lia|]. intros i h' x' H1 H2. apply (R (i + 1)); (pose proof (zget_Some_lt _ _ _ H1); rewrite zget_S by lia; replace (i + 1 - 1) with i by lia; assumption). }
  apply K; [exact f_ns_len|]. intros k n i Hn Hi. destruct (f_symbol k i Hi) as (y & n' & Hy & Hn' & S1 & S2 & S3 & S4 & S5). rewrite Hn in Hn'. injection Hn' as <-. exists y. split; [exact Hy|].
  destruct OK as (_ & HY & _). pose proof (Forall_zget _ _ _ _ HY Hy) as (Y1 & Y2 & Y3 & Y4 & Y5). split.
  - split; [exact S5|]. split; [|split; [exact S3|]].
    + exists (n_value n). split; [|reflexivity]. unfold sym_addr. destruct (sy_section y) as [| | | |id]; try exact S2. destruct S2 as (x & Hx & Hv). specialize (Y4 id eq_refl). destruct (zget_lt_Some _ _ Y4) as (z & Hz). destruct (f_section id z Hz) as (a & off & ro & nr & h & Hl & _ & Hh & _ & _ & _ & _ & _ & _ & _ & _ & F3 & _).
      rewrite Hx in Hl. injection Hl as ->. cbn [fst] in Hv. exists {| xi_kind := ms_kind (ro_of w_h (pt_g P)) h; xi_sec := h; xi_offset := x_offset h |}. cbn [w_f mf_sections xi_sec]. split; [|congruence].
      unfold w_xs. assert (ZM : forall A B (g : A -> B) l j, zget (map g l) j = option_map g (zget l j)). { clear. intros A B g l. induction l as [|u l IH]; intros j; [unfold zget; cbn [map]; destruct (_ && _), (Z.to_nat j); reflexivity|]. cbn [map]. destruct (Z.ltb_spec 0 j); [rewrite !zget_S by lia; apply IH|]. destruct (Z.eq_dec j 0) as [->|]; [rewrite !zget_0; reflexivity|]. rewrite (proj2 (zget_None _ _)), (proj2 (zget_None _ _)) by lia. reflexivity. }
      rewrite ZM, Hh. reflexivity.
    + intros t d Q. cbn [norm n_type n_desc]. pose proof (symbol_flags_ok y _ _ Y2 Y5 S4) as (_ & _ & K2). exact (K2 _ _ Q).
  - intros Q. apply reports_ok; [exact Q|lia|exact S4|exact S3|]. intros id Hid. specialize (Y4 id Hid). lia.
Qed.
Lemma w_relocs : e = Little -> Forall2 (fun x y => Forall (mrel_in c) (se_relocs y) -> reads_relocs c o (pt_order P) F x y) w_xs (o_sections o).
Proof.
  intros El. pose proof f_len as FL.
  assert (K : forall hs ss, zlen hs = zlen ss -> (forall i h x, zget hs i = Some h -> zget ss i = Some x -> Forall (mrel_in c) (se_relocs x) -> reads_relocs c o (pt_order P) F {| xi_kind := ms_kind (ro_of w_h (pt_g P)) h; xi_sec := h; xi_offset := x_offset h |} x) ->
    Forall2 (fun x y => Forall (mrel_in c) (se_relocs y) -> reads_relocs c o (pt_order P) F x y) (map (fun h => {| xi_kind := ms_kind (ro_of w_h (pt_g P)) h; xi_sec := h; xi_offset := x_offset h |}) hs) ss).
  { induction hs as [|h hs IH]; intros [|x ss] L R; try (unfold zlen in L; cbn in L; lia); cbn [map]; constructor; [apply (R 0); apply zget_0|]. apply IH; [rewrite !zlen_cons in L; lia|]. intros i h' x' H1 H2. apply (R (i + 1)); (pose proof (zget_Some_lt _ _ _ H1); rewrite zget_S by lia; replace (i + 1 - 1) with i by lia; assumption). }
  unfold w_xs. apply K; [exact f_hs_len|]. intros i h x Hh Hx HR. destruct (f_section i x Hx) as (a & off & ro & nr & h' & _ & _ & Hh' & Hin & Pl & _ & R0 & Nr & Mk & F1 & F2 & F3 & F4 & F5 & F6 & F7 & F8 & F9). rewrite Hh in Hh'. injection Hh' as <-.
  apply reads_relocs_ok; cbn [xi_sec]; try assumption.
  - exact (proj1 (proj2 (proj2 (cpu_ok _ _ _ _ (po_cpu F P PO))))).
  - exact w_bytes.
  - lia.
  - exact (po_nsym F P PO).
  - exact (po_nsec F P PO).
  - lia.
  - congruence.
  - intros N. destruct (po_rel F P PO) as (_ & R). destruct (R _ Hin N) as (ms & es & R1 & R2 & R3 & R4 & R5). cbn [fst snd] in *. exists ms, es. split; [exact R1|]. split; [exact R2|]. split; [exact R3|]. split; [exact R4|]. rewrite F7. rewrite (po_file F P PO).
    replace (pt_hdr P ++ pt_cmds P ++ pt_dat P ++ pt_rel P ++ pt_pad P ++ pt_symbols P ++ pt_strdata P) with ((pt_hdr P ++ pt_cmds P ++ pt_dat P ++ pt_rel P) ++ pt_pad P ++ pt_symbols P ++ pt_strdata P) by (rewrite <- !app_assoc; reflexivity). apply holds_ext. exact R5.
Qed.
Lemma w_load_commands : exists it it', mach_load_commands is64 e (mf_header w_f) F 0 = Ok it /\ runs (lc_next e) it w_l false it'.
Proof.
  pose proof f_len as FL. cbn [w_f mf_header]. pose proof w_holds_hdr as HH. pose proof (holds_bounds _ _ _ HH) as HB. rewrite w_hdr_len in HB. destruct (hdr_enc is64 e w_h w_r w_hdr_ok) as (Eh & _).
  pose proof (f_equal mh_n Eh) as H1. pose proof (f_equal mh_sz Eh) as H2. unfold mhdr_of in H1, H2. cbn [mh_cpu mh_sub mh_file mh_n mh_sz mh_fl] in H1, H2. change (pt_ncmds (p := p)) with (mh_n w_h) in H1. change (pt_base P - mach_header_size is64) with (mh_sz w_h) in H2.
  assert (BH : bytes_ok (mach_hdr is64 e w_h w_r)) by (eapply holds_bytes; [exact w_bytes|exact HH]).
  pose proof w_cmds_len as LC. pose proof (holds_bounds _ _ _ w_holds_cmds) as HC. assert (T0 : 0 <= table_size is64) by (rewrite <- w_hdr_len; apply zlen_nonneg).
  destruct (load_commands_cases is64 e (mach_hdr is64 e w_h w_r) F w_bytes BH ltac:(lia) ltac:(lia)) as [(D & E1 & E2 & E3)|(_ & _ & E)]; [|exfalso; lia].
  rewrite H2 in E3. assert (D = pt_cmds P) as ->. { rewrite <- (holds_slice _ _ _ E2), <- (holds_slice _ _ _ w_holds_cmds). congruence. }
  rewrite H1 in E1. pose proof w_readable as RD. change true with (negb false) in RD. pose proof (holds_bytes _ _ _ w_bytes E2) as BD. assert (N0 : 0 <= mh_n w_h) by (destruct w_hdr_ok as (_ & _ & _ & N & _); unfold u32_ok in N; lia).
  apply (lc_iff e (pt_cmds P) (mh_n w_h) (table_size is64) w_l false BD N0 T0 ltac:(lia)) in RD. destruct RD as (st & RD). eexists _, st. split; [exact E1|exact RD].
Qed.
Lemma w_dysymtab : In w_c4 w_l /\ dysymtab_says e w_c4 (zlen (pt_locals P)) (zlen (pt_externals P)) (zlen (pt_undefineds P)).
Proof.
  split; [unfold w_l; right; apply in_or_app; right; right; left; reflexivity|]. pose proof (po_nsym F P PO) as N. unfold pt_order in N. rewrite !zlen_app in N. pose proof (zlen_nonneg (pt_locals P)). pose proof (zlen_nonneg (pt_externals P)). pose proof (zlen_nonneg (pt_undefineds P)).
  unfold dysymtab_says. cbn [lc_cmd lc_data w_c4]. unfold pt_dy, mw_dysymtab. split; [reflexivity|]. repeat split; repeat (rewrite fld_skip by lia); (first [apply fld_hd|apply fld_hd1]; [reflexivity|lia]).
Qed.
Lemma w_build a b d : mo_build p = Some (a, b, d) -> exists cc, In cc w_l /\ build_says e cc a b d.
Proof.
  intros Eb. destruct OK as (_ & _ & _ & _ & _ & _ & O3). destruct (O3 _ _ _ Eb) as (B1 & B2 & B3). exists {| lc_cmd := 50; lc_offset := w_o1; lc_data := mw_build e (a, b, d) |}. unfold u32_ok in *.
  split; [unfold w_l, w_cb, pt_bld; rewrite Eb; right; left; reflexivity|]. unfold build_says. cbn [lc_cmd lc_data]. unfold mw_build. split; [reflexivity|]. repeat split; repeat (rewrite fld_skip by lia); (first [apply fld_hd|apply fld_hd1]; [reflexivity|lia]).
Qed.
End File.
