(** Model of src/read/macho/fixup.rs: chained fixups.  Definitions only. *)
From Verif Require Export Iter_model Hash_model.

(** The bit-field accessors of src/macho.rs 4565-5153 have the form [(v >> k) & ((1 << n) - 1)] *)
Definition bits (v k n : Z) : Z := Z.land (Z.shiftr v k) (2 ^ n - 1).
Definition bit (v k : Z) : bool := negb (Z.land (Z.shiftr v k) 1 =? 0).

(** * Fixups *)
(** 451-515 [FixupAuth], [FixupRebase], [FixupBind], [FixupKernelCacheRebase], [FixupSegmentedRebase], [Fixup]; a key is its number (src/macho.rs 509-518) *)
Record fauth := { fa_key : Z; fa_diversity : Z; fa_addr_div : bool }.
Inductive fixup :=
| FRebase (target : Z) (auth : option fauth)
| FBind (ordinal addend : Z) (auth : option fauth)
| FKernel (target level : Z) (auth : option fauth)
| FSegmented (index offset : Z) (auth : option fauth).

(** fixup.rs 555-560, 585-590, 623-628, 672-677, 735-740 *)
Definition ptr_key (k : Z) : Z := if k =? 1 then 1 else if k =? 2 then 2 else if k =? 3 then 3 else 0.
(** src/macho.rs 4639-4653, 4684-4698, 4727-4741, 4769-4783, 4877-4891: [diversity], [addr_div], [key] *)
Definition ptr_auth (v : Z) : fauth := {| fa_key := ptr_key (bits v 49 2); fa_diversity := bits v 32 16; fa_addr_div := bit v 48 |}.
(** fixup.rs 552-579 [parse_arm64e_bind], 620-647 [parse_arm64e_bind24] ([w] bits of ordinal; src/macho.rs 4660-4671, 4703-4714: sign extended addend) *)
Definition parse_arm64e_bind (w v : Z) : fixup :=
  if bit v 63 then FBind (bits v 0 w) 0 (Some (ptr_auth v))
  else FBind (bits v 0 w) (Z.shiftr (wrap_s 32 (Z.shiftr v 19)) 13) None.
(** 581-608 [parse_arm64e_rebase] *)
Definition parse_arm64e_rebase (v vmaddr : Z) : fixup :=
  if bit v 63 then FRebase (bits v 0 32) (Some (ptr_auth v))
  else FRebase (Z.lor (wrap_u 64 (bits v 0 43 - vmaddr)) (Z.shiftl (bits v 43 8) 56)) None.
(** 542-550 [parse_arm64e], 610-618 [parse_userland24] *)
Definition parse_arm64e (w v stride vmaddr : Z) : Z * fixup :=
  (bits v 51 11 * stride, if bit v 62 then parse_arm64e_bind w v else parse_arm64e_rebase v vmaddr).
(** 649-667 [parse_64] *)
Definition parse_64 (v vmaddr : Z) : Z * fixup :=
  (bits v 51 12 * 4,
   if bit v 63 then FBind (bits v 0 24) (bits v 24 8) None
   else FRebase (Z.lor (wrap_u 64 (bits v 0 36 - vmaddr)) (Z.shiftl (bits v 36 8) 56)) None).
(** 669-692 [parse_64_kernel_cache] *)
Definition parse_kernel (v stride : Z) : Z * fixup :=
  (bits v 51 12 * stride, FKernel (bits v 0 30) (bits v 30 2) (if bit v 63 then Some (ptr_auth v) else None)).
(** 694-712 [parse_32] *)
Definition parse_32 (v vmaddr : Z) : Z * fixup :=
  let v := wrap_u 32 v in
  (bits v 26 5 * 4, if bit v 31 then FBind (bits v 0 20) (bits v 20 6) None else FRebase (wrap_u 64 (bits v 0 26 - vmaddr)) None).
(** 714-721 [parse_32_cache], 723-730 [parse_32_firmware] *)
Definition parse_32_plain (v w n : Z) : Z * fixup := let v := wrap_u 32 v in (bits v w n * 4, FRebase (bits v 0 w) None).
(** 732-755 [parse_arm64e_segmented] *)
Definition parse_segmented (v : Z) : Z * fixup :=
  (bits v 51 12 * 4, FSegmented (bits v 28 4) (bits v 0 28) (if bit v 63 then Some (ptr_auth v) else None)).
(** 757-783 [parse_arm64e_shared_cache] *)
Definition parse_shared (v : Z) : Z * fixup :=
  (bits v 52 11 * 8,
   if bit v 63 then FRebase (bits v 0 34) (Some {| fa_key := if bit v 51 then 2 else 0; fa_diversity := bits v 34 16; fa_addr_div := bit v 50 |})
   else FRebase (Z.lor (bits v 0 34) (Z.shiftl (bits v 34 8) 56)) None).
(** 518-540 [Fixup::parse] *)
Definition fixup_parse (format v vmaddr : Z) : out (Z * fixup) :=
  if format =? 1 then Ok (parse_arm64e 16 v 8 vmaddr)
  else if format =? 7 then Ok (parse_arm64e 16 v 4 0)
  else if format =? 9 then Ok (parse_arm64e 16 v 8 0)
  else if format =? 10 then Ok (parse_arm64e 16 v 4 vmaddr)
  else if format =? 12 then Ok (parse_arm64e 24 v 8 0)
  else if format =? 2 then Ok (parse_64 v vmaddr)
  else if format =? 6 then Ok (parse_64 v 0)
  else if format =? 8 then Ok (parse_kernel v 4)
  else if format =? 11 then Ok (parse_kernel v 1)
  else if format =? 3 then Ok (parse_32 v vmaddr)
  else if format =? 4 then Ok (parse_32_plain v 30 2)
  else if format =? 5 then Ok (parse_32_plain v 26 6)
  else if format =? 14 then Ok (parse_segmented v)
  else if format =? 13 then Ok (parse_shared v)
  else Err.

(** * Chains *)
(** 271-276 [DyldChainedSegment], with the fields of the header that are used (src/macho.rs 4476-4497) *)
Record cseg := { cs_index : Z; cs_size : Z; cs_page_size : Z; cs_format : Z; cs_offset : Z; cs_max : Z; cs_page_count : Z; cs_starts : list Z }.
(** 322-327 [FixupState], 333-351 [DyldChainedFixupIterator]: its variable part *)
Inductive fstate := FxStart | FxChain | FxPage | FxPageChain.
Record fxit := { fx_state : fstate; fx_page : Z; fx_chain : Z; fx_page_offset : Z; fx_offset : Z }.
(** 297-318 [fixups] *)
Definition fx_new : fxit := {| fx_state := FxStart; fx_page := 0; fx_chain := 0; fx_page_offset := 0; fx_offset := 0 |}.
Section Fx.
Context (e : endian) (g : cseg) (vmaddr : Z) (D : bytes).
(** 366-438 [next_inner]; a page without fixups is the only case in which the loop goes on from [Start] to [Start], so that [fuel] above the number of
    remaining pages suffices *)
Fixpoint fx_loop (fuel : nat) (s : fxit) : out (option (Z * fixup)) * fxit :=
  match fuel with
  | O => (Panic, s)
  | S fuel =>
    match fx_state s with
    | FxStart =>
      if cs_page_count g <=? fx_page s then (Ok None, s)
      else match zget (cs_starts g) (fx_page s) with
           | None => (Err, s)
           | Some start =>
             match (po <- pmul 64 (fx_page s) (cs_page_size g) ;; n <- padd 64 (fx_page s) 1 ;; Ok (po, n)) with
             | Ok (po, n) =>
               if start =? 65535 then fx_loop fuel {| fx_state := FxStart; fx_page := n; fx_chain := fx_chain s; fx_page_offset := po; fx_offset := fx_offset s |}
               else if negb (Z.land start 32768 =? 0) then
                 fx_loop fuel {| fx_state := FxChain; fx_page := n; fx_chain := Z.land start 32767; fx_page_offset := po; fx_offset := fx_offset s |}
               else match padd 64 po start with
                    | Ok o => fx_loop fuel {| fx_state := FxPage; fx_page := n; fx_chain := fx_chain s; fx_page_offset := po; fx_offset := o |}
                    | _ => (Panic, s)
                    end
             | _ => (Panic, s)
             end
           end
    | FxChain =>
      match zget (cs_starts g) (fx_chain s) with
      | None => (Err, s)
      | Some start =>
        match (n <- padd 64 (fx_chain s) 1 ;; o <- padd 64 (fx_page_offset s) (Z.land start 32767) ;; Ok (n, o)) with
        | Ok (n, o) =>
          fx_loop fuel {| fx_state := if negb (Z.land start 32768 =? 0) then FxPage else FxPageChain; fx_page := fx_page s; fx_chain := n;
                          fx_page_offset := fx_page_offset s; fx_offset := o |}
        | _ => (Panic, s)
        end
      end
    | st =>
      let n := if ((cs_format g =? 3) || (cs_format g =? 4) || (cs_format g =? 5)) then 4 else 8 in
      match b_read_at D (fx_offset s) n with
      | Ok b =>
        match fixup_parse (cs_format g) (read_u e b) vmaddr with
        | Ok (next, fx) =>
          let r := (fx_offset s, fx) in
          if next =? 0 then
            (Ok (Some r), {| fx_state := match st with FxPageChain => FxChain | _ => FxStart end; fx_page := fx_page s; fx_chain := fx_chain s;
                             fx_page_offset := fx_page_offset s; fx_offset := fx_offset s |})
          else match padd 64 (fx_offset s) next with
               | Ok o => (Ok (Some r), {| fx_state := st; fx_page := fx_page s; fx_chain := fx_chain s; fx_page_offset := fx_page_offset s; fx_offset := o |})
               | _ => (Panic, s)
               end
        | Err => (Err, s)
        | Panic => (Panic, s)
        end
      | Err => (Err, s)
      | Panic => (Panic, s)
      end
    end
  end.
(** 357-364 [next] *)
Definition fx_next (s : fxit) : out (option (Z * fixup)) * fxit :=
  match fx_loop (S (S (S (length (cs_starts g))))) s with
  | (Err, s) => (Err, {| fx_state := FxStart; fx_page := cs_page_count g; fx_chain := fx_chain s; fx_page_offset := fx_page_offset s; fx_offset := fx_offset s |})
  | r => r
  end.
End Fx.

(** * Imports and segments *)
(** 39-50 [DyldChainedFixups::parse] (header: src/macho.rs 4442-4457), 9-21 [chained_fixups] *)
Definition cfix_parse (e : endian) (data : bytes) : out bytes :=
  h <- b_read_at data 0 28 ;;
  if negb (fld e 0 4 h =? 0) then Err else Ok h.
Definition chained_fixups (e : endian) (cmd F : bytes) : out (bytes * bytes) :=
  d <- rr_read_bytes_at F (fld e 8 4 cmd) (fld e 12 4 cmd) ;; h <- cfix_parse e d ;; Ok (d, h).
(** 111-117 [DyldChainedImportIterator], 58-80 [imports] *)
Record ciit := { ci_imports : bytes; ci_symbols : bytes; ci_count : Z; ci_format : Z }.
Definition cfix_imports (e : endian) (data h : bytes) : out ciit :=
  if negb (fld e 24 4 h =? 0) then Err
  else
    imports <- of_opt (get_from data (fld e 8 4 h)) ;;
    symbols <- of_opt (get_from data (fld e 12 4 h)) ;;
    Ok {| ci_imports := imports; ci_symbols := symbols; ci_count := fld e 16 4 h; ci_format := fld e 20 4 h |}.
(** 149-158 [DyldChainedImport]; src/macho.rs 5083-5153: [dylib], [weak_import], [name_offset] *)
Record cimport := { cm_dylib : Z; cm_weak : bool; cm_addend : Z; cm_name : bytes }.
Definition import32 (v : Z) : Z * bool * Z :=
  let o := Z.land v 255 in (if 240 <? o then wrap_s 8 o else o, bit v 8, Z.shiftr v 9).
Definition import64 (v : Z) : Z * bool * Z :=
  let o := Z.land v 65535 in (if 65520 <? o then wrap_s 16 o else o, bit v 16, wrap_u 32 (Z.shiftr v 32)).
(** 161-211 [parse] *)
Definition cimport_parse (e : endian) (format : Z) (symbols imports : bytes) : out cimport * bytes :=
  do r, imports <-
    (if (format =? 1) || (format =? 2) then
       do b, imports <- b_read imports 4 ;;
       if format =? 2 then do a, imports <- b_read imports 4 ;; (Ok (import32 (read_u e b), read_i e a), imports)
       else (Ok (import32 (read_u e b), 0), imports)
     else if format =? 3 then
       do b, imports <- b_read imports 8 ;; do a, imports <- b_read imports 8 ;; (Ok (import64 (read_u e b), wrap_s 64 (read_u e a)), imports)
     else (Err, imports)) ;;
  let '(dylib, weak, off, addend) := r in
  match b_read_string_at symbols off with
  | Ok name => (Ok {| cm_dylib := dylib; cm_weak := weak; cm_addend := addend; cm_name := name |}, imports)
  | Err => (Err, imports)
  | Panic => (Panic, imports)
  end.
(** 121-135 [next] *)
Definition ci_next (e : endian) (it : ciit) : out (option cimport) * ciit :=
  if ci_count it =? 0 then (Ok None, it)
  else match cimport_parse e (ci_format it) (ci_symbols it) (ci_imports it) with
       | (Ok x, d) => match psub (ci_count it) 1 with
                      | Ok n => (Ok (Some x), {| ci_imports := d; ci_symbols := ci_symbols it; ci_count := n; ci_format := ci_format it |})
                      | _ => (Panic, it)
                      end
       | (Err, d) => (Err, {| ci_imports := d; ci_symbols := ci_symbols it; ci_count := 0; ci_format := ci_format it |})
       | (Panic, d) => (Panic, it)
       end.
(** 217-222 [DyldChainedSegmentIterator], 83-105 [segments]; the state is the index *)
Definition cfix_segments (e : endian) (data h : bytes) : out (bytes * list Z) :=
  d <- of_opt (get_from data (fld e 4 4 h)) ;;
  match (do c, r <- b_read d 4 ;; b_read_slice r 4 (read_u e c)) with
  | (Ok l, _) => Ok (d, map (read_u e) l)
  | _ => Err
  end.
(** 226-257 [next] *)
Definition cseg_parse (e : endian) (d : bytes) (index off : Z) : out cseg :=
  d <- of_opt (get_from d off) ;;
  match b_read d 22 with
  | (Ok h, d) =>
    n <- of_opt (csub (fld e 0 4 h) 22) ;;
    match b_read_slice d 2 (n / 2) with
    | (Ok l, _) => Ok {| cs_index := index; cs_size := fld e 0 4 h; cs_page_size := fld e 4 2 h; cs_format := fld e 6 2 h; cs_offset := fld e 8 8 h;
                         cs_max := fld e 16 4 h; cs_page_count := fld e 20 2 h; cs_starts := map (read_u e) l |}
    | _ => Err
    end
  | _ => Err
  end.
Fixpoint cg_loop (fuel : nat) (e : endian) (d : bytes) (offs : list Z) (i : Z) : out (option cseg) * Z :=
  match fuel with
  | O => (Panic, i)
  | S fuel =>
    match zget offs i with
    | None => (Ok None, i)
    | Some off =>
      match padd 32 i 1 with
      | Ok i' =>
        if off =? 0 then cg_loop fuel e d offs i'
        else match cseg_parse e d i off with
             | Ok g => (Ok (Some g), i')
             | Err => (Err, i')
             | Panic => (Panic, i')
             end
      | _ => (Panic, i)
      end
    end
  end.
Definition cg_next (e : endian) (d : bytes) (offs : list Z) (i : Z) : out (option cseg) * Z := cg_loop (S (length offs)) e d offs i.
