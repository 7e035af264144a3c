(** C28, C29: the object builder. *)
From Verif Require Import Core_proofs Obj_proofs.
From Verif Require Export Obj_spec.

(** * C28 *)
(** appended data goes to the next multiple of its alignment, after zeros; the section's alignment becomes the greatest asked for *)
Theorem C28_append f a e o sec d al off o' : built f a e o -> u64_ok al -> call (OAppend sec d al) o = (Ok (ROffset off), o') ->
  exists s s', zget (o_sections o) sec = Some s /\ zget (o_sections o') sec = Some s' /\ pow2 al /\ is_bss (se_kind s) = false /\
    aligned_after (zlen (se_data s)) al off /\ se_data s' = se_data s ++ zeros (off - zlen (se_data s)) ++ d /\ se_size s' = off + zlen d /\ se_align s' = Z.max (se_align s) al /\
    se_relocs s' = se_relocs s /\ se_symbol s' = se_symbol s /\ se_name s' = se_name s /\ se_kind s' = se_kind s /\ se_flags s' = se_flags s /\
    o_symbols o' = o_symbols o /\ zlen (o_sections o') = zlen (o_sections o) /\ (forall j, j <> sec -> zget (o_sections o') j = zget (o_sections o) j).
Proof.
  intros Hb Ha H. cbn [call] in H. apply wrap_ret_inv in H as (r0 & H & _ & Hx). destruct (Hx _ eq_refl) as (x & -> & [= <-]).
  destruct (append_spec _ _ _ _ _ _ Ha H) as (s & s' & Hs & -> & Hp & Hbs & Ho & ->). pose proof (zget_Some_lt _ _ _ Hs). exists s. eexists. split; [exact Hs|].
  cbn [with_sections o_sections o_symbols]. rewrite Str_proofs.zget_zset, Z.eqb_refl by lia. split; [reflexivity|]. cbn [sec_with se_data se_size se_align se_relocs se_symbol se_name se_kind se_flags].
  repeat (split; [first [exact Hp|exact Hbs|exact Ho|reflexivity]|]). split; [apply Str_proofs.zlen_zset; lia|].
  intros j Hj. rewrite Str_proofs.zget_zset by lia. destruct (Z.eqb_spec j sec); [lia|reflexivity].
Qed.
Print Assumptions C28_append.
(** it fails only if it must *)
Theorem C28_append_panic f a e o sec d al r o' : built f a e o -> u64_ok al -> call (OAppend sec d al) o = (r, o') ->
  match r with
  | Ok _ => True
  | Err => False
  | Panic => forall s, zget (o_sections o) sec = Some s ->
      is_bss (se_kind s) = true \/ ~ pow2 al \/ exists off, aligned_after (zlen (se_data s)) al off /\ 2 ^ 63 <= off + zlen d
  end.
Proof.
  intros Hb Ha H. cbn [call] in H. destruct (o_append o sec d al) as [r1 o1] eqn:E. apply (append_spec _ _ _ _ _ _ Ha) in E.
  destruct r1; cbn [wrap_ret] in H; injection H as <- <-; auto.
Qed.
Print Assumptions C28_append_panic.
Theorem C28_bss f a e o sec n al off o' : built f a e o -> u64_ok n -> u64_ok al -> call (OAppendBss sec n al) o = (Ok (ROffset off), o') ->
  exists s s', zget (o_sections o) sec = Some s /\ zget (o_sections o') sec = Some s' /\ pow2 al /\ is_bss (se_kind s) = true /\
    aligned_after (se_size s) al off /\ se_data s' = [] /\ se_size s' = off + n /\ off + n < 2 ^ 64 /\ se_align s' = Z.max (se_align s) al /\
    se_name s' = se_name s /\ se_kind s' = se_kind s /\ o_symbols o' = o_symbols o /\ (forall j, j <> sec -> zget (o_sections o') j = zget (o_sections o) j).
Proof.
  intros Hb Hn Ha H. pose proof (built_coherent _ _ _ _ Hb) as Hc. cbn [call] in H. apply wrap_ret_inv in H as (r0 & H & _ & Hx). destruct (Hx _ eq_refl) as (x & -> & [= <-]).
  destruct (append_bss_spec _ _ _ _ _ _ Hc Hn Ha H) as (s & s' & Hs & -> & Hp & Hbs & Ho & -> & Hl). pose proof (zget_Some_lt _ _ _ Hs). exists s. eexists. split; [exact Hs|].
  cbn [with_sections o_sections o_symbols]. rewrite Str_proofs.zget_zset, Z.eqb_refl by lia. split; [reflexivity|]. cbn [sec_with se_data se_size se_align se_name se_kind].
  pose proof (co_size _ Hc _ _ Hs) as [_ Hd]. rewrite Hbs in Hd.
  repeat (split; [first [exact Hp|exact Hbs|exact Ho|exact Hd|exact Hl|reflexivity]|]).
  intros j Hj. rewrite Str_proofs.zget_zset by lia. destruct (Z.eqb_spec j sec); [lia|reflexivity].
Qed.
Print Assumptions C28_bss.
Theorem C28_bss_panic f a e o sec n al r o' : built f a e o -> u64_ok n -> u64_ok al -> call (OAppendBss sec n al) o = (r, o') ->
  match r with
  | Ok _ => True
  | Err => False
  | Panic => forall s, zget (o_sections o) sec = Some s ->
      is_bss (se_kind s) = false \/ ~ pow2 al \/ exists off, aligned_after (se_size s) al off /\ 2 ^ 64 <= off + n
  end.
Proof.
  intros Hb Hn Ha H. pose proof (built_coherent _ _ _ _ Hb) as Hc. cbn [call] in H. destruct (o_append_bss o sec n al) as [r1 o1] eqn:E. apply (append_bss_spec _ _ _ _ _ _ Hc Hn Ha) in E.
  destruct r1; cbn [wrap_ret] in H; injection H as <- <-; auto.
Qed.
Print Assumptions C28_bss_panic.
(** whatever is called afterwards, the data stays where it was put, but for the fields of relocations *)
Theorem C28_stays f a e o sec d al off o' o'' : built f a e o -> u64_ok al -> call (OAppend sec d al) o = (Ok (ROffset off), o') -> later o' o'' ->
  exists s, zget (o_sections o'') sec = Some s /\ data_at s off d /\ off + zlen d <= zlen (se_data s) /\ (se_align s >= al \/ off + zlen d = 0).
Proof.
  intros Hb Ha H Hl. cbn [call] in H. apply wrap_ret_inv in H as (r0 & H & _ & Hx). destruct (Hx _ eq_refl) as (x & -> & [= <-]). eapply append_later; eauto.
Qed.
Print Assumptions C28_stays.
(** data given to a symbol: the symbol is where the data is *)
Theorem C28_symbol_data f a e o id sec d al off o' y : built f a e o -> u64_ok al -> zget (o_symbols o) id = Some y -> f <> FMachO \/ sy_kind y <> YTls ->
  call (OAddSymbolData id sec d al) o = (Ok (ROffset off), o') ->
  exists o1, call (OAppend sec (datum o d) al) o = (Ok (ROffset off), o1) /\ o_sections o' = o_sections o1 /\
    zget (o_symbols o') id = Some (sym_at y off (zlen (datum o d)) (YSec sec)) /\ (forall j, j <> id -> zget (o_symbols o') j = zget (o_symbols o) j).
Proof.
  intros Hb Ha Hy Hk H. assert (o_format o = f) as Hf. { clear - Hb. induction Hb; [reflexivity|]. rewrite <- IHHb. pose proof (built_coherent _ _ _ _ Hb). apply (call_keeps _ _ _ _ H H0 H1); assumption. }
  rewrite <- Hf in Hk. cbn [call] in H |- *. apply wrap_ret_inv in H as (r0 & H & _ & Hx). destruct (Hx _ eq_refl) as (x & -> & [= <-]).
  destruct (symbol_data_spec _ _ _ _ _ _ _ _ Ha Hy Hk H) as (o1 & E & _ & ->). exists o1. rewrite E. split; [reflexivity|]. split; [reflexivity|].
  pose proof (zget_Some_lt _ _ _ Hy). cbn [with_symbols o_symbols]. split; [rewrite Str_proofs.zget_zset, Z.eqb_refl by lia; reflexivity|].
  intros j Hj. rewrite Str_proofs.zget_zset by lia. destruct (Z.eqb_spec j id); [lia|reflexivity].
Qed.
Print Assumptions C28_symbol_data.
Theorem C28_symbol_bss f a e o id sec n al off o' y : built f a e o -> u64_ok n -> u64_ok al -> zget (o_symbols o) id = Some y -> f <> FMachO \/ sy_kind y <> YTls ->
  call (OAddSymbolBss id sec n al) o = (Ok (ROffset off), o') ->
  exists o1, call (OAppendBss sec (bss_size o n) al) o = (Ok (ROffset off), o1) /\ o_sections o' = o_sections o1 /\
    zget (o_symbols o') id = Some (sym_at y off (bss_size o n) (YSec sec)) /\ (forall j, j <> id -> zget (o_symbols o') j = zget (o_symbols o) j).
Proof.
  intros Hb Hn Ha Hy Hk H. assert (o_format o = f) as Hf. { clear - Hb. induction Hb; [reflexivity|]. rewrite <- IHHb. pose proof (built_coherent _ _ _ _ Hb). apply (call_keeps _ _ _ _ H H0 H1); assumption. }
  rewrite <- Hf in Hk. cbn [call] in H |- *. apply wrap_ret_inv in H as (r0 & H & _ & Hx). destruct (Hx _ eq_refl) as (x & -> & [= <-]).
  destruct (symbol_bss_spec _ _ _ _ _ _ _ _ (built_coherent _ _ _ _ Hb) Hn Ha Hy Hk H) as (o1 & E & _ & ->). exists o1. rewrite E. split; [reflexivity|]. split; [reflexivity|].
  pose proof (zget_Some_lt _ _ _ Hy). cbn [with_symbols o_symbols]. split; [rewrite Str_proofs.zget_zset, Z.eqb_refl by lia; reflexivity|].
  intros j Hj. rewrite Str_proofs.zget_zset by lia. destruct (Z.eqb_spec j id); [lia|reflexivity].
Qed.
Print Assumptions C28_symbol_bss.

(** * C29 *)
Theorem C29_coherent f a e o : built f a e o -> coherent o.
Proof. exact (built_coherent f a e o). Qed.
Print Assumptions C29_coherent.
Theorem C29_grows f a e o c r o' : built f a e o -> call_ok c o -> call c o = (r, o') -> r <> Panic -> grows o o'.
Proof. intros Hb Hok H Hr. exact (proj2 (call_keeps _ _ _ _ Hok H Hr (built_coherent _ _ _ _ Hb))). Qed.
Print Assumptions C29_grows.
Theorem C29_later f a e o o' : built f a e o -> later o o' -> grows o o'.
Proof. intros Hb H. exact (proj2 (later_keeps _ _ H (built_coherent _ _ _ _ Hb))). Qed.
Print Assumptions C29_later.
(** a new symbol has the next id; its stored name is mangled; it is now the one found by its name, and the only change to what is found *)
Theorem C29_add_symbol f a e o y r o' : built f a e o -> sy_kind y <> YSection -> call (OAddSymbol y) o = (r, o') -> r <> Panic ->
  r = Ok (RId (zlen (o_symbols o))) /\ o_symbols o' = o_symbols o ++ [stored o y] /\ o_sections o' = o_sections o /\
  forall n, o_symbol_id o' n = if named y && bytes_eqb (sy_name y) n then Some (zlen (o_symbols o)) else o_symbol_id o n.
Proof.
  intros Hb K H Hr. cbn [call] in H. destruct (o_add_symbol o y) as [r1 o1] eqn:E.
  assert (r1 <> Panic) as Hr1 by (intros ->; cbn in H; congruence). destruct (add_symbol_other _ _ _ _ K E Hr1) as (-> & _ & ->). cbn [wrap_ret] in H. apply pair_equal_spec in H as [<- <-].
  split; [reflexivity|]. split; [reflexivity|]. split; [reflexivity|]. intros n. unfold o_symbol_id. cbn [with_map o_map]. destruct (named y); cbn [andb]; [|reflexivity]. apply lookup_name_cons.
Qed.
Print Assumptions C29_add_symbol.
(** adding a section symbol gives the section's own symbol *)
Theorem C29_add_section_symbol f a e o y sec r o' : built f a e o -> sy_kind y = YSection -> sy_section y = YSec sec -> call (OAddSymbol y) o = (r, o') -> r <> Panic ->
  exists id, r = Ok (RId id) /\ is_section_symbol o' id sec /\ (forall id', is_section_symbol o' id' sec -> id' = id) /\ (forall id', is_section_symbol o id' sec -> id' = id).
Proof. exact (add_section_symbol_spec f a e o y sec r o'). Qed.
Print Assumptions C29_add_section_symbol.
(** no other call changes what is found by name *)
Theorem C29_symbol_id f a e o c r o' : built f a e o -> call_ok c o -> call c o = (r, o') -> r <> Panic -> match c with OAddSymbol _ | OAddCommon _ _ _ => False | _ => True end ->
  finds_same o o'.
Proof. intros Hb. exact (call_finds c o r o' (built_coherent _ _ _ _ Hb)). Qed.
Print Assumptions C29_symbol_id.
(** the symbol of a section is made once *)
Theorem C29_section_symbol f a e o sec r o' : built f a e o -> call (OSectionSymbol sec) o = (r, o') ->
  match r with
  | Ok x => exists y, x = RId y /\ is_section_symbol o' y sec /\ call (OSectionSymbol sec) o' = (Ok (RId y), o') /\
      ((o' = o /\ is_section_symbol o y sec) \/ (forall y0, ~ is_section_symbol o y0 sec) /\ y = zlen (o_symbols o) /\ prefix_of (o_symbols o) (o_symbols o') /\ zlen (o_symbols o') = y + 1)
  | Err => False
  | Panic => zget (o_sections o) sec = None
  end.
Proof.
  intros Hb H. cbn [call] in H |- *. destruct (o_section_symbol o sec) as [r1 o1] eqn:E. apply (section_symbol_spec _ _ _ _ (built_coherent _ _ _ _ Hb)) in E.
  destruct r1 as [y| |]; cbn [wrap_ret] in H; injection H as <- <-; auto. destruct E as (E1 & E2 & _ & _ & _ & _ & _ & _ & _ & E3). exists y. split; [reflexivity|]. split; [exact E1|]. rewrite E2. auto.
Qed.
Print Assumptions C29_section_symbol.
(** a standard section is made once *)
Theorem C29_section_id f a e o st r o' : built f a e o -> call (OSectionId st) o = (r, o') ->
  exists id, r = Ok (RId id) /\ first_std o' st id /\ call (OSectionId st) o' = (Ok (RId id), o') /\
  ((o' = o /\ first_std o st id) \/ (forall i, ~ first_std o st i) /\ id = zlen (o_sections o) /\ exists s, o_sections o' = o_sections o ++ [s] /\ same_place s (section_info f a st) /\ se_size s = 0 /\ se_data s = [] /\ se_relocs s = [] /\ se_align s = 1 /\
      se_flags s = snd (section_info f a st)) /\ o_symbols o' = o_symbols o.
Proof. exact (section_id_call f a e o st r o'). Qed.
Print Assumptions C29_section_id.
(** a relocation is added to its section, as the format has it, and nothing else changes; a failed call changes nothing that was there *)
Theorem C29_relocation f a e o sec off sym ad sub fl r o' : built f a e o -> u64_ok off -> zget (o_sections o) sec <> None ->
  call (OAddRelocation sec off sym ad sub fl) o = (r, o') ->
  match r with
  | Ok _ => (exists sym', target o' f fl sym sym' /\ relocates o o' sec off sym' ad fl) /\ others_same o o' sec
  | Err => nearly o o' sec
  | Panic => True
  end.
Proof. exact (relocation_call f a e o sec off sym ad sub fl r o'). Qed.
Print Assumptions C29_relocation.
(** a Mach-O thread-local symbol that gets data becomes a descriptor in the section of thread-local variables: three words, the first
    relocated against the bootstrap symbol, the third against a new symbol, which gets the data *)
Theorem C29_thread_variable a e o id sec d al off o' y : built FMachO a e o -> u64_ok al -> zget (o_symbols o) id = Some y -> sy_kind y = YTls ->
  call (OAddSymbolData id sec d al) o = (Ok (ROffset off), o') ->
  exists o1 asz tv voff boot s r1 r2 l by', call (OAppend sec (datum o d) al) o = (Ok (ROffset off), o1) /\ address_size a = Some asz /\ first_std o' StTlsVariables tv /\
    zget (o_symbols o') (zlen (o_symbols o)) = Some {| sy_name := sy_name y ++ str "$tlv$init"; sy_value := off; sy_size := zlen (datum o d); sy_kind := YTls;
      sy_scope := ScCompilation; sy_weak := false; sy_section := YSec sec; sy_flags := None |} /\
    zget (o_symbols o') id = Some (sym_at y voff (asz * 3) (YSec tv)) /\
    zget (o_symbols o') boot = Some by' /\ sy_name by' = mangled o (str "_tlv_bootstrap") /\
    zget (o_sections o') tv = Some s /\ (asz | voff) /\ zslice voff (3 * asz) (se_data s) = zeros (3 * asz) /\
    se_relocs s = l ++ [r1; r2] /\ ol_offset r1 = voff /\ ol_symbol r1 = boot /\ ol_addend r1 = 0 /\ ol_offset r2 = voff + 2 * asz /\ ol_symbol r2 = zlen (o_symbols o) /\ ol_addend r2 = 0.
Proof. exact (thread_variable_call a e o id sec d al off o' y). Qed.
Print Assumptions C29_thread_variable.

(** * Examples *)
Fixpoint run (l : list op) (o : obj) : option obj :=
  match l with
  | [] => Some o
  | c :: l => match call c o with (Panic, _) => None | (_, o') => run l o' end
  end.
Lemma run_later l : forall o o', run l o = Some o' -> Forall (fun c => forall o, call_ok c o) l -> later o o'.
Proof.
  induction l as [|c l IH]; intros o o' H F; cbn [run] in H; [injection H as <-; constructor|]. apply Forall_cons_iff in F as [F1 F].
  destruct (call c o) as [r o1] eqn:E. destruct r as [x| |]; [| |discriminate]; eapply later_call; eauto; discriminate.
Qed.
Lemma later_built f a e o o' : later o o' -> built f a e o -> built f a e o'.
Proof. induction 1 as [|o c r o1 o2 Hok H Hr Hl IH]; intros Hb; [exact Hb|]. apply IH. eapply built_call; eauto. Qed.
Definition ex_sym (n : bytes) (k : symkind) : osym := {| sy_name := n; sy_value := 0; sy_size := 0; sy_kind := k; sy_scope := ScLinkage; sy_weak := false; sy_section := YUndefined; sy_flags := None |}.
(** three bytes, then five at the next multiple of eight *)
Definition ex_ops : list op := [OSectionId StData; OAddSymbol (ex_sym (str "x") YData); OAppend 0 [1;2;3] 1].
Definition ex_obj : obj := match run ex_ops (o_new FElf AI386 Little) with Some o => o | None => o_new FElf AI386 Little end.
Example C28_ex : match call (OAppend 0 [4;5;6;7;8] 8) ex_obj with
  | (Ok (ROffset 8), o') => match zget (o_sections o') 0 with Some s => se_data s = [1;2;3;0;0;0;0;0;4;5;6;7;8] /\ se_align s = 8 /\ se_size s = 13 | None => False end
  | _ => False
  end.
Proof. vm_compute. repeat split. Qed.
Example C28_ex_hyps : built FElf AI386 Little ex_obj /\ u64_ok 8 /\ (exists o', call (OAppend 0 [4;5;6;7;8] 8) ex_obj = (Ok (ROffset 8), o') /\
  exists o'', later o' o'' /\ exists s, zget (o_sections o'') 0 = Some s /\ se_data s = [1;2;3;0;0;0;0;0;42;0;0;0;8] /\ zlen (se_relocs s) = 1).
Proof.
  split; [|split; [unfold u64_ok; lia|]].
  - eapply later_built; [|apply built_new]. eapply (run_later ex_ops); [vm_compute; reflexivity|]. repeat (constructor; [cbn; intros; try exact I; unfold u64_ok; lia|]). constructor.
  - eexists. split; [vm_compute; reflexivity|]. eexists. split.
    + eapply (run_later [OAddRelocation 0 8 0 42 None (RFgeneric KAbsolute EGeneric 32)]); [vm_compute; reflexivity|]. constructor; [cbn; intros; unfold u64_ok; lia|constructor].
    + eexists. split; [vm_compute; reflexivity|]. split; reflexivity.
Qed.
Example C28_ex_bss : match run [OSectionId StUninitializedData; OAppendBss 0 3 1; OAddSymbol (ex_sym (str "b") YData); OAddSymbolBss 0 0 16 8] (o_new FElf AX86_64 Little) with
  | Some o => match zget (o_sections o) 0, zget (o_symbols o) 0 with Some s, Some y => se_size s = 24 /\ se_align s = 8 /\ se_data s = [] /\ sy_value y = 8 /\ sy_size y = 16 /\ sy_section y = YSec 0 | _, _ => False end
  | None => False
  end.
Proof. vm_compute. repeat split. Qed.
(** i386 ELF keeps addends in the section: the field at 8 has the addend, the relocation has none *)
Example C29_ex : match run (ex_ops ++ [OAppend 0 [4;5;6;7;8] 8; OAddRelocation 0 8 0 258 None (RFgeneric KAbsolute EGeneric 32); OSectionSymbol 0; OSectionSymbol 0; OSectionId StData;
    OAddSymbol (ex_sym (str "x") YData)]) (o_new FElf AI386 Little) with
  | Some o => match zget (o_sections o) 0 with
    | Some s => se_data s = [1;2;3;0;0;0;0;0;2;1;0;0;8] /\ map ol_addend (se_relocs s) = [0] /\ map ol_flags (se_relocs s) = [RFelf 1] /\ se_symbol s = Some 1 /\
        zlen (o_sections o) = 1 /\ zlen (o_symbols o) = 3 /\ o_symbol_id o (str "x") = Some 2
    | None => False
    end
  | None => False
  end.
Proof. vm_compute. repeat split. Qed.
(** a thread-local variable in Mach-O *)
Definition ex_tls : obj := match run [OAddSection (str "__DATA") (str "__thread_data") SKTls; OAddSymbol (ex_sym (str "t") YTls)] (o_new FMachO AX86_64 Little) with Some o => o | None => o_new FMachO AX86_64 Little end.
Example C29_ex_hyps : built FMachO AX86_64 Little ex_tls /\ (exists y, zget (o_symbols ex_tls) 0 = Some y /\ sy_kind y = YTls /\ sy_name y = str "_t") /\
  exists o', call (OAddSymbolData 0 0 [7;7;7;7] 4) ex_tls = (Ok (ROffset 0), o') /\ map sy_name (o_symbols o') = [str "_t"; str "_t$tlv$init"; str "__tlv_bootstrap"].
Proof.
  split; [|split].
  - eapply later_built; [|apply built_new]. eapply (run_later [OAddSection (str "__DATA") (str "__thread_data") SKTls; OAddSymbol (ex_sym (str "t") YTls)]); [vm_compute; reflexivity|]. repeat (constructor; [cbn; intros; exact I|]). constructor.
  - eexists. split; [vm_compute; reflexivity|]. split; reflexivity.
  - eexists. split; [vm_compute; reflexivity|]. reflexivity.
Qed.
(** a COFF relocation through the import table makes a stub *)
Example C29_ex_stub : match run [OSectionId StText; OAppend 0 [0;0;0;0] 4; OAddSymbol (ex_sym (str "f") YText); OAddRelocation 0 0 0 (-4) None (RFgeneric KGotRelative EGeneric 32)] (o_new FCoff AX86_64 Little) with
  | Some o => map se_name (o_sections o) = [str ".text"; str ".rdata$.refptr"] /\ map sy_name (o_symbols o) = [str "f"; str ".refptr.f"] /\
      match zget (o_sections o) 0 with Some s => map ol_symbol (se_relocs s) = [1] | None => False end /\
      match zget (o_sections o) 1 with Some s => map ol_symbol (se_relocs s) = [0] /\ se_data s = zeros 8 | None => False end
  | None => False
  end.
Proof. vm_compute. repeat split. Qed.
