(** Proofs about the unified ELF reader: build ids, debug links, COMDAT groups. *)
From Verif Require Import Core_proofs Str_proofs Util_proofs Hash_proofs Rel_proofs Note_proofs Ver_proofs File_proofs Elf_proofs ElfR_proofs Pod_proofs.
From Verif Require PeI_proofs PeX_proofs Ar_spec Ar_proofs ArSym_proofs CoffR_proofs CoffI_proofs CoffW_proofs Trie_proofs MachW_proofs.
From Verif Require Import Obj_model ElfF_spec ElfF_proofs ElfG_proofs ElfH_proofs.

(** * Build id *)
Lemma strip_app k x l : x <> 0 -> strip_zeros (repeat 0 k ++ x :: l) = x :: l.
Proof. intros H. induction k as [|k IH]; cbn [repeat app strip_zeros]; [destruct x; [contradiction|reflexivity|reflexivity]|exact IH]. Qed.
Lemma rev_repeat (x : Z) k : rev (repeat x k) = repeat x k.
Proof. induction k as [|k IH]; [reflexivity|]. cbn [repeat rev]. rewrite IH. clear IH. induction k as [|k IH]; [reflexivity|]. cbn [repeat app]. rewrite IH. reflexivity. Qed.
Definition found (e : endian) (n : note) : bool := bytes_eqb (note_name n) (str "GNU") && (n_type e n =? 3).
Lemma found_iff e n : found e n = true <-> is_build_id (view e n).
Proof.
  unfold found, is_build_id, view. cbn [v_type Note_spec.v_name]. rewrite Bool.andb_true_iff, Z.eqb_eq. split.
  - intros (A & B). split; [exact B|]. apply bytes_eqb_eq in A. destruct (note_name_spec n) as (k & _ & E & _). exists k. rewrite E, A. reflexivity.
  - intros (B & k & E). split; [|exact B]. unfold note_name. rewrite E, rev_app_distr. unfold zeros. rewrite rev_repeat. change (rev (str "GNU")) with [85; 78; 71]. rewrite strip_app by lia. reflexivity.
Qed.
Lemma find_step fuel e al data : find_build_id (S fuel) e al data =
  match note_next e al data with
  | (Ok None, _) => Ok None
  | (Ok (Some n), data) => if found e n then Ok (Some (nt_desc n)) else find_build_id fuel e al data
  | (Err, _) => Err
  | (Panic, _) => Panic
  end.
Proof. reflexivity. Qed.
Lemma found_not e n : found e n = false <-> ~ is_build_id (view e n).
Proof. rewrite <- found_iff. destruct (found e n); split; congruence. Qed.
(** what the loop does *)
Definition id_here (e : endian) (al : Z) (d : bytes) (id : bytes) : Prop := exists l n post, notes_then e al post l d /\ Forall (fun n => ~ is_build_id n) l /\
    is_build_id n /\ v_desc n = id /\ exists b tl, post = b ++ tl /\ note_body e al n b.
Definition id_absent (e : endian) (al : Z) (d : bytes) : Prop := exists l, notes_data e al l d /\ Forall (fun n => ~ is_build_id n) l.
Lemma here_cons e al n b pad d id : note_body e al n b -> padding al (zlen b) pad -> ~ is_build_id n -> id_here e al d id -> id_here e al (b ++ pad ++ d) id.
Proof.
  intros A B C (l & m & post & D & E & G). exists (n :: l), m, post. split; [apply nt_cons; assumption|]. split; [constructor; assumption|exact G].
Qed.
Lemma data_cons e al n b pad l d : note_body e al n b -> padding al (zlen b) pad -> notes_data e al l d -> notes_data e al (n :: l) (b ++ pad ++ d).
Proof.
  intros A B [C|(l' & m & b' & short & more & -> & C1 & C2 & C3 & C4)]; [left; apply nt_cons; assumption|].
  right. exists (n :: l'), m, b', short, more. split; [reflexivity|]. repeat (split; [assumption|]). apply nt_cons; assumption.
Qed.
Lemma find_total e al : al_ok al -> forall fuel d, bytes_ok d -> (length d < fuel)%nat ->
  match find_build_id fuel e al d with Ok (Some id) => id_here e al d id | Ok None => id_absent e al d | Err => True | Panic => False end.
Proof.
  intros Hal. induction fuel as [|fuel IH]; intros d K L; [lia|]. rewrite find_step. destruct d as [|x d'] eqn:Ed.
  { cbn [note_next]. exists []. split; [left; constructor|constructor]. }
  rewrite <- Ed in *. rewrite note_next_parse by (rewrite Ed; discriminate). clear x d' Ed. destruct (note_parse e al d) as [r rest] eqn:P. pose proof (note_parse_sound e al d r rest K Hal P) as S.
  destruct r as [m| |]; [|exact I|exact S]. destruct S as (_ & b & Hb & Lb & C). destruct (found e m) eqn:Fm.
  - apply found_iff in Fm. exists [], (view e m), d. split; [constructor|]. split; [constructor|]. split; [exact Fm|]. split; [reflexivity|]. destruct C as [(pad & _ & ->)|(_ & short & more & _ & _ & ->)]; eexists b, _; (split; [reflexivity|exact Hb]).
  - apply found_not in Fm. destruct C as [(pad & Hp & ->)|(-> & short & more & Hm & Hp & ->)].
    + apply bytes_ok_app in K as (_ & K). apply bytes_ok_app in K as (_ & K). specialize (IH rest K). rewrite !app_length in L.
      assert (length b >= 12)%nat by (unfold zlen in Lb; lia). specialize (IH ltac:(lia)). destruct (find_build_id fuel e al rest) as [[id|]| |]; try exact IH.
      * apply here_cons with (n := view e m); assumption.
      * destruct IH as (l & A & B). exists (view e m :: l). split; [apply data_cons; assumption|constructor; assumption].
    + destruct fuel as [|fuel]; [rewrite app_length in L; unfold zlen in Lb; lia|]. rewrite find_step. cbn [note_next]. exists [view e m]. split; [|constructor; [exact Fm|constructor]].
      right. exists [], (view e m), b, short, more. split; [reflexivity|]. split; [exact Hb|]. split; [exact Hp|]. split; [exact Hm|constructor].
Qed.
Lemma find_then e al : al_ok al -> forall l post d fuel, bytes_ok d -> notes_then e al post l d -> Forall (fun n => ~ is_build_id n) l -> (length d < fuel)%nat ->
  exists fuel', (length post < fuel')%nat /\ find_build_id fuel e al d = find_build_id fuel' e al post.
Proof.
  intros Hal l post d fuel K H. revert fuel K. induction H as [|n b pad l d Hb Hp H IH]; intros fuel K N L; [exists fuel; split; [exact L|reflexivity]|].
  inversion N as [|? ? N1 N2]; subst. destruct fuel as [|fuel]; [lia|]. rewrite find_step. pose proof (note_body_pos _ _ _ _ Hb) as Lb.
  rewrite note_next_parse by (intro E; apply app_eq_nil in E as (E & _); rewrite E in Lb; change (zlen (@nil Z)) with 0 in Lb; lia).
  destruct (note_parse_complete e al n b (b ++ pad ++ d) (pad ++ d) K Hal Hb eq_refl) as (m & V & _ & E). rewrite E.
  assert (Fm : found e m = false) by (apply found_not; rewrite V; exact N1). rewrite Fm.
  pose proof (padding_up al _ _ Hal Hp) as Up. rewrite <- Up. rewrite !app_length in L. unfold zlen in Lb at 1.
  assert (L1 : zlen b + zlen pad <= zlen (b ++ pad ++ d)) by (zl_norm; zl_pos; lia).
  destruct (Z.leb_spec (zlen b + zlen pad) (zlen (b ++ pad ++ d))); [|lia]. rewrite zdrop_after by reflexivity.
  apply bytes_ok_app in K as (_ & K). apply bytes_ok_app in K as (_ & K). apply IH; [exact K|exact N2|lia].
Qed.
Lemma find_here e al d id fuel : al_ok al -> bytes_ok d -> (length d < fuel)%nat -> id_here e al d id -> find_build_id fuel e al d = Ok (Some id).
Proof.
  intros Hal K L (l & n & post & H & N & B & D & b & tl & -> & Hb). destruct (find_then e al Hal l (b ++ tl) d fuel K H N L) as (f' & L' & ->). destruct f' as [|f']; [lia|]. rewrite find_step.
  assert (K' : bytes_ok (b ++ tl)). { clear - K H. revert K. induction H; intro K; [exact K|]. apply IHnotes_then. apply bytes_ok_app in K as (_ & K). apply bytes_ok_app in K as (_ & K). exact K. }
  pose proof (note_body_pos _ _ _ _ Hb) as Lb. rewrite note_next_parse by (intro E; apply app_eq_nil in E as (E & _); rewrite E in Lb; change (zlen (@nil Z)) with 0 in Lb; lia).
  destruct (note_parse_complete e al n b (b ++ tl) tl K' Hal Hb eq_refl) as (m & V & _ & E). rewrite E.
  assert (Fm : found e m = true) by (apply found_iff; rewrite V; exact B). rewrite Fm. rewrite <- D, <- V. reflexivity.
Qed.
Lemma find_absent e al d fuel : al_ok al -> bytes_ok d -> (length d < fuel)%nat -> id_absent e al d -> find_build_id fuel e al d = Ok None.
Proof.
  intros Hal K L (l & [H|(l' & n & b & short & more & -> & Hb & Hp & Hm & H)] & N).
  - destruct (find_then e al Hal l [] d fuel K H N L) as (f' & L' & ->). destruct f' as [|f']; [lia|]. reflexivity.
  - apply Forall_app in N as (N1 & N2). inversion N2 as [|? ? N3 _]; subst. destruct (find_then e al Hal l' (b ++ short) d fuel K H N1 L) as (f' & L' & ->). destruct f' as [|f']; [lia|]. rewrite find_step.
    assert (K' : bytes_ok (b ++ short)). { clear - K H. revert K. induction H; intro K; [exact K|]. apply IHnotes_then. apply bytes_ok_app in K as (_ & K). apply bytes_ok_app in K as (_ & K). exact K. }
    pose proof (note_body_pos _ _ _ _ Hb) as Lb. rewrite note_next_parse by (intro E; apply app_eq_nil in E as (E & _); rewrite E in Lb; change (zlen (@nil Z)) with 0 in Lb; lia).
    destruct (note_parse_complete e al n b (b ++ short) short K' Hal Hb eq_refl) as (m & V & _ & E). rewrite E.
    assert (Fm : found e m = false) by (apply found_not; rewrite V; exact N3). rewrite Fm. pose proof (padding_up al _ _ Hal Hp) as Up. rewrite <- Up.
    assert (0 < zlen more) by (destruct more; [contradiction|zl_norm; zl_pos; lia]).
    destruct (Z.leb_spec (zlen b + zlen (short ++ more)) (zlen (b ++ short))) as [Q|Q]; [exfalso; rewrite !zlen_app in Q; lia|].
    destruct f' as [|f']; [rewrite app_length in L'; unfold zlen in Lb; lia|]. reflexivity.
Qed.
Lemma first_some {A B} (f : A -> out (option B)) l y : first_found f l = Ok (Some y) <-> exists a x c, l = a ++ x :: c /\ Forall (fun x => f x = Ok None) a /\ f x = Ok (Some y).
Proof.
  induction l as [|x l IH]; cbn [first_found].
  - split; [discriminate|]. intros (a & x & c & E & _). destruct a; discriminate.
  - destruct (f x) as [[z|]| |] eqn:E; cbn [bind].
    + split; [intro H; exists [], x, l; split; [reflexivity|split; [constructor|congruence]]|]. intros (a & x' & c & Ea & H & H'). destruct a as [|x0 a]; cbn [app] in Ea; injection Ea as -> ->; [congruence|]. inversion H; congruence.
    + rewrite IH. split.
      * intros (a & x' & c & -> & H & H'). exists (x :: a), x', c. split; [reflexivity|split; [constructor; assumption|exact H']].
      * intros (a & x' & c & Ea & H & H'). destruct a as [|x0 a]; cbn [app] in Ea; injection Ea as -> ->; [congruence|]. inversion H; subst. exists a, x', c. split; [reflexivity|split; assumption].
    + split; [discriminate|]. intros (a & x' & c & Ea & H & H'). destruct a as [|x0 a]; cbn [app] in Ea; injection Ea as -> ->; [congruence|]. inversion H; congruence.
    + split; [discriminate|]. intros (a & x' & c & Ea & H & H'). destruct a as [|x0 a]; cbn [app] in Ea; injection Ea as -> ->; [congruence|]. inversion H; congruence.
Qed.
Lemma first_none {A B} (f : A -> out (option B)) l : first_found f l = Ok None <-> Forall (fun x => f x = Ok None) l.
Proof.
  induction l as [|x l IH]; cbn [first_found]; [split; [constructor|reflexivity]|]. destruct (f x) as [[z|]| |] eqn:E; cbn [bind].
  - split; [discriminate|]. intro H. inversion H; congruence.
  - rewrite IH. split; [intro H; constructor; assumption|intro H; inversion H; assumption].
  - split; [discriminate|]. intro H. inversion H; congruence.
  - split; [discriminate|]. intro H. inversion H; congruence.
Qed.
Lemma first_np {A B} (f : A -> out (option B)) l : (forall x, In x l -> f x <> Panic) -> first_found f l <> Panic.
Proof.
  induction l as [|x l IH]; intros H; cbn [first_found]; [discriminate|]. pose proof (H x (or_introl eq_refl)) as Hx. destruct (f x) as [[z|]| |]; cbn [bind]; try discriminate; [|contradiction].
  apply IH. intros y I. apply H. right. exact I.
Qed.
Definition area_id (e : endian) (x : out bytes * Z) : out (option bytes) := build_id_in e true (fst x) (snd x).
Lemma area_filter {A} e (p : A -> bool) (d : A -> out bytes) (al : A -> Z) l :
  first_found (fun x => build_id_in e (p x) (d x) (al x)) l = first_found (area_id e) (map (fun x => (d x, al x)) (filter p l)).
Proof.
  induction l as [|x l IH]; [reflexivity|]. cbn [first_found filter]. destruct (p x) eqn:P; cbn [map first_found].
  - change (area_id e (d x, al x)) with (build_id_in e true (d x) (al x)). destruct (build_id_in e true (d x) (al x)) as [[y|]| |]; cbn [bind]; try reflexivity. exact IH.
  - unfold build_id_in at 1. cbn [negb bind]. exact IH.
Qed.
Lemma build_id_areas f F : ef_build_id f F = first_found (area_id (ef_endian f)) (note_areas f F).
Proof. unfold ef_build_id, note_areas. destruct (stab_sections (ef_sections f)); apply area_filter. Qed.
Definition area_ok (x : out bytes * Z) : Prop := 0 <= snd x /\ fst x <> Panic /\ forall d, fst x = Ok d -> bytes_ok d.
Lemma area_align_iff a al : 0 <= a -> area_align a al <-> note_align a = Ok al.
Proof.
  intros H. rewrite note_align_ok by exact H. unfold area_align. destruct (Z.leb_spec a 4); [split; [intros [(_ & ->)|(A & _)]; [reflexivity|lia]|intros [= <-]; left; split; [assumption|reflexivity]]|].
  destruct (Z.eqb_spec a 8); [split; [intros [(A & _)|(_ & ->)]; [lia|reflexivity]|intros [= <-]; right; split; [assumption|reflexivity]]|]. split; [lia|discriminate].
Qed.
Lemma align_al_ok a al : note_align a = Ok al -> al_ok al.
Proof. unfold note_align, al_ok. destruct (_ && _); [intros [= <-]; left; reflexivity|]. destruct (a =? 8); [intros [= <-]; right; reflexivity|discriminate]. Qed.
Lemma area_spec e x : area_ok x -> (forall id, area_id e x = Ok (Some id) <-> area_build_id e x id) /\ (area_id e x = Ok None <-> no_build_id e x) /\ area_id e x <> Panic.
Proof.
  intros (Ha & Hp & Hd). unfold area_id, build_id_in, area_build_id, no_build_id. cbn [negb]. destruct (fst x) as [d| |]; cbn [bind]; [|split; [|split]|contradiction].
  2: intro id; split; [discriminate|intros (d & al & l & n & post & A & _); discriminate]. 2: split; [discriminate|intros (d & al & l & A & _); discriminate]. 2: discriminate.
  specialize (Hd d eq_refl). pose proof (fun al => area_align_iff (snd x) al Ha) as AA. destruct (note_align (snd x)) as [al| |] eqn:NA; cbn [bind].
  - pose proof (align_al_ok _ _ NA) as Hal. assert (L : (length d < fuel_of d)%nat) by (unfold fuel_of; lia). pose proof (find_total e al Hal (fuel_of d) d Hd L) as T. split; [|split].
    + intros id. split.
      * intro E. rewrite E in T. destruct T as (l & n & post & T). exists d, al, l, n, post. split; [reflexivity|]. split; [apply AA; reflexivity|exact T].
      * intros (d' & al' & l & n & post & A & B & C). assert (d' = d) as -> by congruence. apply AA in B. assert (al' = al) as -> by congruence. apply find_here; try assumption. exists l, n, post. exact C.
    + split.
      * intro E. rewrite E in T. destruct T as (l & T). exists d, al, l. split; [reflexivity|]. split; [apply AA; reflexivity|exact T].
      * intros (d' & al' & l & A & B & C). assert (d' = d) as -> by congruence. apply AA in B. assert (al' = al) as -> by congruence. apply find_absent; try assumption. exists l. exact C.
    + intro E. rewrite E in T. exact T.
  - split; [intro id; split; [discriminate|]; intros (d' & al & l & n & post & A & B & _); apply AA in B; discriminate|].
    split; [split; [discriminate|]; intros (d' & al & l & A & B & _); apply AA in B; discriminate|discriminate].
  - exfalso. unfold note_align in NA. destruct (_ && _); [discriminate|]. destruct (_ =? 8); discriminate.
Qed.
Lemma build_id_spec f F : Forall area_ok (note_areas f F) ->
  (forall id, ef_build_id f F = Ok (Some id) <-> build_id_of f F id) /\ (ef_build_id f F = Ok None <-> Forall (no_build_id (ef_endian f)) (note_areas f F)) /\ ef_build_id f F <> Panic.
Proof.
  intros K. rewrite build_id_areas. unfold build_id_of. revert K. generalize (note_areas f F). intros l K. rewrite Forall_forall in K. split; [|split].
  - intros id. rewrite first_some. split; intros (a & x & c & -> & A & B); exists a, x, c; (split; [reflexivity|]); assert (Ka : forall y, In y a -> area_ok y) by (intros y I; apply K; apply in_or_app; left; exact I).
    + split; [|apply area_spec; [apply K; apply in_or_app; right; left; reflexivity|exact B]]. rewrite Forall_forall in *. intros y I. apply area_spec; [apply Ka; exact I|apply A; exact I].
    + split; [|apply area_spec; [apply K; apply in_or_app; right; left; reflexivity|exact B]]. rewrite Forall_forall in *. intros y I. apply area_spec; [apply Ka; exact I|apply A; exact I].
  - rewrite first_none. split; intro H; rewrite Forall_forall in *; intros y I; (apply area_spec; [apply K; exact I|apply H; exact I]).
  - apply first_np. intros x I. apply area_spec. apply K. exact I.
Qed.
Lemma note_areas_ok is64 f F : bytes_ok F -> Forall (shdr_ok is64) (stab_sections (ef_sections f)) -> Forall (phdr_ok is64) (ef_segments f) -> Forall area_ok (note_areas f F).
Proof.
  intros K S P. unfold note_areas. destruct (stab_sections (ef_sections f)) as [|h l].
  - rewrite Forall_map. apply Forall_forall. intros p I. apply filter_In in I as (I & _). rewrite Forall_forall in P. destruct (P p I) as (_ & _ & _ & _ & _ & _ & _ & A). split; [cbn [snd]; unfold word_ok in A; destruct is64; lia|].
    split; [apply rr_read_bytes_at_no_panic|]. intros d. apply rr_read_bytes_at_ok. exact K.
  - rewrite Forall_map. apply Forall_forall. intros p I. apply filter_In in I as (I & _). rewrite Forall_forall in S. destruct (S p I) as (_ & _ & _ & _ & _ & _ & _ & _ & A & _). split; [cbn [snd]; unfold word_ok in A; destruct is64; lia|].
    split; [apply sh_data_no_panic|]. intros d. apply sh_data_bytes. exact K.
Qed.

(** * Debug links *)
Lemma debuglink_iff f F : bytes_ok F -> zlen F < 2 ^ 63 ->
  (forall name crc, ef_debuglink f F = Ok (Some (name, crc)) <->
    exists i s d, first_named (ef_sections f) (str ".gnu_debuglink") i s /\ sh_data s F = Ok d /\ debuglink (ef_endian f) d name crc) /\
  (ef_debuglink f F = Ok None <-> none_named (ef_sections f) (str ".gnu_debuglink")) /\ ef_debuglink f F <> Panic.
Proof.
  intros K HF. unfold ef_debuglink. pose proof (by_name_some (ef_sections f) (str ".gnu_debuglink")) as BS. pose proof (by_name_none (ef_sections f) (str ".gnu_debuglink")) as BN.
  destruct (section_by_name (ef_sections f) (str ".gnu_debuglink")) as [[i s]|].
  2: { split; [|split; [split; [intros _; apply BN; reflexivity|reflexivity]|discriminate]]. intros name crc. split; [discriminate|]. intros (i & s & d & A & _). apply BS in A. discriminate. }
  assert (FN : first_named (ef_sections f) (str ".gnu_debuglink") i s) by (apply BS; reflexivity).
  assert (UF : forall j s', first_named (ef_sections f) (str ".gnu_debuglink") j s' -> s' = s) by (intros j s' A; exact (proj2 (first_named_fun _ _ _ _ _ _ A FN))).
  assert (NN : ~ none_named (ef_sections f) (str ".gnu_debuglink")) by (intro A; apply BN in A; discriminate).
  destruct (sh_data s F) as [d| |] eqn:D; cbn [bind].
  2: { split; [|split; [split; [discriminate|contradiction]|discriminate]]. intros name crc. split; [discriminate|]. intros (j & s' & d & A & B & _). apply UF in A. subst. congruence. }
  2: { exfalso. exact (sh_data_no_panic _ _ D). }
  assert (Kd : bytes_ok d) by exact (sh_data_bytes _ _ _ K D).
  assert (LD : zlen d < 2 ^ 63). { unfold sh_data in D. destruct (sh_file_range s) as [[o n]|]; [|injection D as <-; change (zlen (@nil Z)) with 0; lia].
    unfold rr_read_bytes_at in D. destruct (n =? 0); [injection D as <-; change (zlen (@nil Z)) with 0; lia|]. unfold get_from in D. destruct (_ && _); cbn [of_opt bind] in D; [|discriminate].
    unfold get_to in D. destruct (_ && _) eqn:Q; cbn [of_opt] in D; [|discriminate]. assert (d = ztake n (zdrop o F)) as -> by congruence. unfold ztake, zdrop, zlen in *. rewrite firstn_length, skipn_length. clear - HF. lia. }
  assert (GD : forall name crc, (exists j s' d', first_named (ef_sections f) (str ".gnu_debuglink") j s' /\ sh_data s' F = Ok d' /\ debuglink (ef_endian f) d' name crc) <-> debuglink (ef_endian f) d name crc).
  { intros name crc. split; [intros (j & s' & d' & A & B & C); apply UF in A; subst; assert (d' = d) as -> by congruence; exact C|]. intro C. exists i, s, d. split; [exact FN|split; [exact D|exact C]]. }
  assert (FORM : forall name rest, ~ In 0 name -> d = name ++ 0 :: rest -> (forall crc, debuglink (ef_endian f) d name crc <-> align_up (zlen name + 1) 4 + 4 <= zlen d /\ crc = read_u (ef_endian f) (zslice (align_up (zlen name + 1) 4) 4 d))).
  { intros name rest Nn Ed crc. destruct (align_up_spec (zlen name + 1) 4) as (A1 & A2); [lia|]. set (o := align_up (zlen name + 1) 4) in *. split.
    - intros (_ & U & pad & tl & E & L & V). assert (O : zlen name + 1 + zlen pad = o) by (apply align_up_unique; [lia|exact V|pose proof (zlen_nonneg pad); lia]).
      assert (H : holds d o (write_u (ef_endian f) 4 crc)). { exists (name ++ [0] ++ pad), tl. split; [rewrite E; rewrite <- !app_assoc; reflexivity|rewrite !zlen_app; change (zlen [0]) with 1; lia]. }
      pose proof (holds_bounds _ _ _ H) as B. rewrite zlen_write_u in B. split; [lia|]. apply holds_slice in H. rewrite zlen_write_u in H. change (Z.of_nat 4) with 4 in H. rewrite H. symmetry. apply read_write_u_small. exact U.
    - intros (L & ->). assert (Lw : zlen (zslice o 4 d) = 4) by (apply zlen_zslice; pose proof (zlen_nonneg name); lia). split; [exact Nn|]. split.
      { pose proof (read_u_bound (ef_endian f) (zslice o 4 d) (bytes_ok_zslice _ _ _ Kd)) as R. rewrite Lw in R. exact R. }
      rewrite (write_read_n (ef_endian f) 4) by (try apply bytes_ok_zslice; assumption). pose proof (zlen_nonneg name). pose proof (zlen_nonneg rest). assert (zlen d = zlen name + 1 + zlen rest) by (rewrite Ed, zlen_app, zlen_cons; lia).
      exists (zslice (zlen name + 1) (o - (zlen name + 1)) d), (zdrop (o + 4) d). rewrite !zlen_zslice by lia. split; [|split; [lia|replace (zlen name + 1 + (o - (zlen name + 1))) with o by lia; exact A1]].
      assert (T : zdrop (zlen name + 1) d = rest). { rewrite Ed. change (0 :: rest) with ([0] ++ rest). rewrite app_assoc. apply zdrop_app_eq. rewrite zlen_app. reflexivity. }
      replace (name ++ [0] ++ zslice (zlen name + 1) (o - (zlen name + 1)) d ++ zslice o 4 d ++ zdrop (o + 4) d) with (name ++ [0] ++ rest); [exact Ed|]. do 2 f_equal. rewrite <- T.
      rewrite (zdrop_zslice d (zlen name + 1) (o - (zlen name + 1))) by lia. f_equal. replace (zlen name + 1 + (o - (zlen name + 1))) with o by lia. apply zdrop_zslice; lia. }
  assert (RS : b_read_string_at d 0 = fst (b_read_string d)). { unfold b_read_string_at. rewrite b_skip_eq by lia. pose proof (zlen_nonneg d). destruct (Z.leb_spec 0 (zlen d)); [reflexivity|lia]. }
  rewrite RS. destruct (Trie_proofs.string_cases d) as [(name & rest & E & Ed & Nn)|(rest & E & Nn)]; rewrite E; cbn [fst bind].
  2: { split; [|split; [split; [discriminate|contradiction]|discriminate]]. intros name crc. rewrite GD. split; [discriminate|]. intros (_ & _ & pad & tl & Ed & _). exfalso. apply Nn. rewrite Ed. apply in_or_app. right. left. reflexivity. }
  specialize (FORM name rest Nn Ed). pose proof (zlen_nonneg name). pose proof (zlen_nonneg rest). assert (zlen d = zlen name + 1 + zlen rest) by (rewrite Ed, zlen_app, zlen_cons; lia).
  unfold padd. destruct (Z.ltb_spec (zlen name + 1) (2 ^ 64)); [|lia]. cbn [bind]. rewrite align_al by (first [left; reflexivity|lia]). cbn [bind]. destruct (align_up_spec (zlen name + 1) 4) as (A1 & A2); [lia|].
  rewrite b_read_at_eq by lia.
  assert (UN : forall n' c', debuglink (ef_endian f) d n' c' -> n' = name). { intros n' c' (N' & _ & pad & tl & E' & _). rewrite Ed in E'. pose proof (b_read_string_app _ (pad ++ write_u (ef_endian f) 4 c' ++ tl) N') as X. pose proof (b_read_string_app name rest Nn) as Y. cbn [app] in E'. rewrite E' in Y. rewrite X in Y. congruence. }
  destruct (Z.leb_spec (align_up (zlen name + 1) 4 + 4) (zlen d)) as [L|L]; cbn [bind].
  - split; [|split; [split; [discriminate|contradiction]|discriminate]]. intros n' c'. rewrite GD. split.
    + intro Q. assert (n' = name) as -> by congruence. apply FORM. split; [exact L|congruence].
    + intro Q. pose proof (UN _ _ Q) as ->. apply FORM in Q as (_ & ->). reflexivity.
  - split; [|split; [split; [discriminate|contradiction]|discriminate]]. intros n' c'. rewrite GD. split; [discriminate|]. intro Q. pose proof (UN _ _ Q) as ->. apply FORM in Q as (Q & _). lia.
Qed.
Lemma debugaltlink_iff f F :
  (forall name id, ef_debugaltlink f F = Ok (Some (name, id)) <->
    exists i s d, first_named (ef_sections f) (str ".gnu_debugaltlink") i s /\ sh_data s F = Ok d /\ debugaltlink d name id) /\
  (ef_debugaltlink f F = Ok None <-> none_named (ef_sections f) (str ".gnu_debugaltlink")) /\ ef_debugaltlink f F <> Panic.
Proof.
  unfold ef_debugaltlink. pose proof (by_name_some (ef_sections f) (str ".gnu_debugaltlink")) as BS. pose proof (by_name_none (ef_sections f) (str ".gnu_debugaltlink")) as BN.
  destruct (section_by_name (ef_sections f) (str ".gnu_debugaltlink")) as [[i s]|].
  2: { split; [|split; [split; [intros _; apply BN; reflexivity|reflexivity]|discriminate]]. intros name crc. split; [discriminate|]. intros (i & s & d & A & _). apply BS in A. discriminate. }
  assert (FN : first_named (ef_sections f) (str ".gnu_debugaltlink") i s) by (apply BS; reflexivity).
  assert (UF : forall j s', first_named (ef_sections f) (str ".gnu_debugaltlink") j s' -> s' = s) by (intros j s' A; exact (proj2 (first_named_fun _ _ _ _ _ _ A FN))).
  assert (NN : ~ none_named (ef_sections f) (str ".gnu_debugaltlink")) by (intro A; apply BN in A; discriminate).
  destruct (sh_data s F) as [d| |] eqn:D; cbn [bind].
  2: { split; [|split; [split; [discriminate|contradiction]|discriminate]]. intros name crc. split; [discriminate|]. intros (j & s' & d & A & B & _). apply UF in A. subst. congruence. }
  2: { exfalso. exact (sh_data_no_panic _ _ D). }
  destruct (Trie_proofs.string_cases d) as [(name & rest & E & Ed & Nn)|(rest & E & Nn)]; rewrite E.
  - split; [|split; [split; [discriminate|contradiction]|discriminate]]. intros n' c'. split.
    + intro Q. assert (n' = name /\ c' = rest) as [-> ->] by (split; congruence). exists i, s, d. split; [exact FN|]. split; [exact D|]. split; [exact Nn|exact Ed].
    + intros (j & s' & d' & A & B & N' & E'). apply UF in A. subst s'. assert (d' = d) as -> by congruence. rewrite E' in E. cbn [app] in E. rewrite b_read_string_app in E by exact N'. congruence.
  - split; [|split; [split; [discriminate|contradiction]|discriminate]]. intros n' c'. split; [discriminate|]. intros (j & s' & d' & A & B & N' & E'). apply UF in A. subst s'. assert (d' = d) as -> by congruence. exfalso. apply Nn. rewrite E'. apply in_or_app. right. left. reflexivity.
Qed.
