(** Model of src/write/pe.rs: the two phase PE writer.  Definitions only. *)
From Verif Require Export Str_model Obj_model.
From Verif Require Export Pe_model.

(** * State *)
(** 50-57: what [Writer::new] gets *)
Record pcfg := { pc_is64 : bool; pc_salign : Z; pc_falign : Z }.
(** 829-847 [Section], [SectionRange] *)
Record psec := { ps_name : bytes; ps_flags : Z; ps_va : Z; ps_vs : Z; ps_fo : Z; ps_fs : Z }.
(** 19-46 [Writer] without the buffer: no reserve method touches the buffer and no write method changes anything else, so that the buffer is kept apart.
    symbol_offset and symbol_num are always 0 and are left out.  Blocks: address and count. *)
Record pr := { p_len : Z; p_vlen : Z; p_hlen : Z; p_ca : Z; p_da : Z; p_cl : Z; p_dl : Z; p_bl : Z; p_nt : Z; p_dirs : list (Z * Z);
  p_nsec : Z; p_secs : list psec; p_blocks : list (Z * Z); p_relocs : list Z; p_roff : Z }.
(** 57-88 [new] *)
Definition p_new : pr := {| p_len := 0; p_vlen := 0; p_hlen := 0; p_ca := 0; p_da := 0; p_cl := 0; p_dl := 0; p_bl := 0; p_nt := 0; p_dirs := [];
  p_nsec := 0; p_secs := []; p_blocks := []; p_relocs := []; p_roff := 0 |}.
(** assignments to fields *)
Definition p_set_len (r : pr) (x : Z) : pr := {| p_len := x; p_vlen := p_vlen r; p_hlen := p_hlen r; p_ca := p_ca r; p_da := p_da r; p_cl := p_cl r; p_dl := p_dl r; p_bl := p_bl r;
  p_nt := p_nt r; p_dirs := p_dirs r; p_nsec := p_nsec r; p_secs := p_secs r; p_blocks := p_blocks r; p_relocs := p_relocs r; p_roff := p_roff r |}.
Definition p_set_vlen (r : pr) (x : Z) : pr := {| p_len := p_len r; p_vlen := x; p_hlen := p_hlen r; p_ca := p_ca r; p_da := p_da r; p_cl := p_cl r; p_dl := p_dl r; p_bl := p_bl r;
  p_nt := p_nt r; p_dirs := p_dirs r; p_nsec := p_nsec r; p_secs := p_secs r; p_blocks := p_blocks r; p_relocs := p_relocs r; p_roff := p_roff r |}.
Definition p_set_hlen (r : pr) (x : Z) : pr := {| p_len := p_len r; p_vlen := p_vlen r; p_hlen := x; p_ca := p_ca r; p_da := p_da r; p_cl := p_cl r; p_dl := p_dl r; p_bl := p_bl r;
  p_nt := p_nt r; p_dirs := p_dirs r; p_nsec := p_nsec r; p_secs := p_secs r; p_blocks := p_blocks r; p_relocs := p_relocs r; p_roff := p_roff r |}.
Definition p_set_code (r : pr) (a l : Z) : pr := {| p_len := p_len r; p_vlen := p_vlen r; p_hlen := p_hlen r; p_ca := a; p_da := p_da r; p_cl := l; p_dl := p_dl r; p_bl := p_bl r;
  p_nt := p_nt r; p_dirs := p_dirs r; p_nsec := p_nsec r; p_secs := p_secs r; p_blocks := p_blocks r; p_relocs := p_relocs r; p_roff := p_roff r |}.
Definition p_set_data (r : pr) (a l b : Z) : pr := {| p_len := p_len r; p_vlen := p_vlen r; p_hlen := p_hlen r; p_ca := p_ca r; p_da := a; p_cl := p_cl r; p_dl := l; p_bl := b;
  p_nt := p_nt r; p_dirs := p_dirs r; p_nsec := p_nsec r; p_secs := p_secs r; p_blocks := p_blocks r; p_relocs := p_relocs r; p_roff := p_roff r |}.
Definition p_set_nt (r : pr) (x : Z) (d : list (Z * Z)) : pr := {| p_len := p_len r; p_vlen := p_vlen r; p_hlen := p_hlen r; p_ca := p_ca r; p_da := p_da r; p_cl := p_cl r; p_dl := p_dl r; p_bl := p_bl r;
  p_nt := x; p_dirs := d; p_nsec := p_nsec r; p_secs := p_secs r; p_blocks := p_blocks r; p_relocs := p_relocs r; p_roff := p_roff r |}.
Definition p_set_nsec (r : pr) (x : Z) : pr := {| p_len := p_len r; p_vlen := p_vlen r; p_hlen := p_hlen r; p_ca := p_ca r; p_da := p_da r; p_cl := p_cl r; p_dl := p_dl r; p_bl := p_bl r;
  p_nt := p_nt r; p_dirs := p_dirs r; p_nsec := x; p_secs := p_secs r; p_blocks := p_blocks r; p_relocs := p_relocs r; p_roff := p_roff r |}.
Definition p_set_secs (r : pr) (l : list psec) : pr := {| p_len := p_len r; p_vlen := p_vlen r; p_hlen := p_hlen r; p_ca := p_ca r; p_da := p_da r; p_cl := p_cl r; p_dl := p_dl r; p_bl := p_bl r;
  p_nt := p_nt r; p_dirs := p_dirs r; p_nsec := p_nsec r; p_secs := l; p_blocks := p_blocks r; p_relocs := p_relocs r; p_roff := p_roff r |}.
Definition p_set_relocs (r : pr) (b : list (Z * Z)) (l : list Z) : pr := {| p_len := p_len r; p_vlen := p_vlen r; p_hlen := p_hlen r; p_ca := p_ca r; p_da := p_da r; p_cl := p_cl r; p_dl := p_dl r; p_bl := p_bl r;
  p_nt := p_nt r; p_dirs := p_dirs r; p_nsec := p_nsec r; p_secs := p_secs r; p_blocks := b; p_relocs := l; p_roff := p_roff r |}.
Definition p_set_roff (r : pr) (x : Z) : pr := {| p_len := p_len r; p_vlen := p_vlen r; p_hlen := p_hlen r; p_ca := p_ca r; p_da := p_da r; p_cl := p_cl r; p_dl := p_dl r; p_bl := p_bl r;
  p_nt := p_nt r; p_dirs := p_dirs r; p_nsec := p_nsec r; p_secs := p_secs r; p_blocks := p_blocks r; p_relocs := p_relocs r; p_roff := x |}.
Definition p_set_dirs (r : pr) (d : list (Z * Z)) : pr := p_set_nt r (p_nt r) d.

(** * Reserving *)
(** 103-108 [reserve_virtual] *)
Definition p_reserve_virtual (c : pcfg) (r : pr) (len : Z) : out (Z * pr) :=
  x <- padd 32 (p_vlen r) len ;; x <- align 32 x (pc_salign c) ;; Ok (p_vlen r, p_set_vlen r x).
(** 113-116 [reserve_virtual_until] *)
Definition p_reserve_virtual_until (c : pcfg) (r : pr) (address : Z) : out pr :=
  if address <? p_vlen r then Panic else x <- align 32 address (pc_salign c) ;; Ok (p_set_vlen r x).
(** 155-157 [reserve_align] *)
Definition p_reserve_align (r : pr) (align_start : Z) : out pr := x <- align 64 (p_len r) align_start ;; Ok (p_set_len r x).
(** 132-140 [reserve] *)
Definition p_reserve (r : pr) (len align_start : Z) : out (Z * pr) :=
  if len =? 0 then Ok (wrap_u 32 (p_len r), r) else
  r <- p_reserve_align r align_start ;; x <- padd 64 (p_len r) len ;; Ok (wrap_u 32 (p_len r), p_set_len r x).
(** 145-147 [reserve_file] *)
Definition p_reserve_file (c : pcfg) (r : pr) (len : Z) : out (Z * pr) := p_reserve r len (pc_falign c).
(** 170-173 [reserve_until] *)
Definition p_reserve_until (r : pr) (offset : Z) : out pr := if offset <? p_len r then Panic else Ok (p_set_len r offset).
(** 186-189 [reserve_dos_header] *)
Definition p_reserve_dos (r : pr) : out pr := if negb (p_len r =? 0) then Panic else ' (_, r) <- p_reserve r 64 1 ;; Ok r.
(** 242-245 [reserve_dos_header_and_stub] *)
Definition p_reserve_dos_stub (r : pr) : out pr := r <- p_reserve_dos r ;; ' (_, r) <- p_reserve r 64 1 ;; Ok r.
(** 298-305 [optional_header_size] *)
Definition p_opt_size (c : pcfg) (r : pr) : out Z := x <- pmul 32 (wrap_u 32 (zlen (p_dirs r))) 8 ;; padd 32 (opt_size (pc_is64 c)) x.
(** 313-321 [reserve_nt_headers] *)
Definition p_reserve_nt (c : pcfg) (r : pr) (ndirs : Z) : out pr :=
  if negb (p_nt r =? 0) then Panic else
  ' (o, r) <- p_reserve r (nt_size (pc_is64 c)) 8 ;;
  x <- pmul 32 (wrap_u 32 ndirs) 8 ;;
  ' (_, r) <- p_reserve (p_set_nt r o (repeat (0, 0) (Z.to_nat ndirs))) x 1 ;; Ok r.
(** 324-329 [set_data_directory]; the index panics *)
Definition dir_set (d : list (Z * Z)) (i : Z) (x : Z * Z) : out (list (Z * Z)) := if (0 <=? i) && (i <? zlen d) then Ok (zset d i x) else Panic.
Definition p_set_dir (r : pr) (i va size : Z) : out pr := d <- dir_set (p_dirs r) i (va, size) ;; Ok (p_set_dirs r d).
(** 439-450 [reserve_section_headers] *)
Definition p_reserve_sechdrs (c : pcfg) (r : pr) (n : Z) : out pr :=
  if negb (p_nsec r =? 0) then Panic else
  x <- pmul 32 n 40 ;;
  ' (_, r) <- p_reserve (p_set_nsec r n) x 1 ;;
  r <- p_reserve_align r (pc_falign c) ;;
  ' (_, r) <- p_reserve_virtual c (p_set_hlen r (wrap_u 32 (p_len r))) (wrap_u 32 (p_len r)) ;; Ok r.
(** 478-526 [reserve_section] *)
Definition p_reserve_section (c : pcfg) (r : pr) (name : bytes) (flags vsize dsize : Z) : out (psec * pr) :=
  ' (va, r) <- p_reserve_virtual c r vsize ;;
  fs <- align 32 dsize (pc_falign c) ;;
  ' (fo, r) <- (if negb (fs =? 0) then p_reserve r fs (pc_falign c) else Ok (0, r)) ;;
  av <- align 32 vsize (pc_falign c) ;;
  r <- (if fl_has flags 32 then l <- padd 32 (p_cl r) av ;; Ok (p_set_code r (if p_ca r =? 0 then va else p_ca r) l)
        else if fl_has flags 64 then l <- padd 32 (p_dl r) av ;; Ok (p_set_data r (if p_da r =? 0 then va else p_da r) l (p_bl r))
        else if fl_has flags 128 then l <- padd 32 (p_bl r) av ;; Ok (p_set_data r (if p_da r =? 0 then va else p_da r) (p_dl r) l)
        else Ok r) ;;
  let s := {| ps_name := name; ps_flags := flags; ps_va := va; ps_vs := vsize; ps_fo := fo; ps_fs := fs |} in
  Ok (s, p_set_secs r (p_secs r ++ [s])).
(** 601-606, 622-627, 643-648, 676-681, 738-743, 779-784: set a directory that has no address yet *)
Definition p_claim_dir (r : pr) (i va size : Z) : out pr :=
  match zget (p_dirs r) i with
  | Some d => if negb (fst d =? 0) then Panic else p_set_dir r i va size
  | None => Panic
  end.
Definition p_reserve_dir_section (c : pcfg) (r : pr) (name : bytes) (flags size i : Z) : out (psec * pr) :=
  ' (s, r) <- p_reserve_section c r name flags size size ;; r <- p_claim_dir r i (ps_va s) size ;; Ok (s, r).
(** 688-710 [add_reloc] *)
Definition p_pad_block (blocks : list (Z * Z)) (relocs : list Z) : out (list (Z * Z) * list Z) :=
  match rev blocks with
  | (va, n) :: older => if negb (Z.land n 1 =? 0) then m <- padd 32 n 1 ;; Ok (rev older ++ [(va, m)], relocs ++ [0]) else Ok (blocks, relocs)
  | [] => Ok (blocks, relocs)
  end.
Definition p_add_reloc (r : pr) (va typ : Z) : out pr :=
  let reloc := Z.lor (wrap_u 16 (Z.shiftl typ 12)) (Z.land va 4095) in
  let page := Z.land va (2 ^ 32 - 1 - 4095) in
  match rev (p_blocks r) with
  | (bva, n) :: older =>
    if bva =? page then m <- padd 32 n 1 ;; Ok (p_set_relocs r (rev older ++ [(bva, m)]) (p_relocs r ++ [reloc])) else
    ' (blocks, relocs) <- p_pad_block (p_blocks r) (p_relocs r) ;;
    if negb (bva <? page) then Panic else Ok (p_set_relocs r (blocks ++ [(page, 1)]) (relocs ++ [reloc]))
  | [] => Ok (p_set_relocs r [(page, 1)] (p_relocs r ++ [reloc]))
  end.
(** 855-857 [RelocBlock::size] *)
Definition p_block_size (b : Z * Z) : out Z := x <- pmul 32 (snd b) 2 ;; padd 32 8 x.
Fixpoint p_blocks_size (l : list (Z * Z)) (sum : Z) : out Z :=
  match l with [] => Ok sum | b :: l => x <- p_block_size b ;; s <- padd 32 sum x ;; p_blocks_size l s end.
(** 721-748 [reserve_reloc_section] *)
Definition p_reserve_reloc (c : pcfg) (r : pr) : out (psec * pr) :=
  ' (blocks, relocs) <- p_pad_block (p_blocks r) (p_relocs r) ;;
  let r := p_set_relocs r blocks relocs in
  size <- p_blocks_size blocks 0 ;;
  ' (s, r) <- p_reserve_dir_section c r (str ".reloc" ++ [0; 0]) 1107296320 size 5 ;;
  Ok (s, p_set_roff r (ps_fo s)).
(** 776-786 [reserve_certificate_table] *)
Definition p_reserve_cert (r : pr) (size : Z) : out pr :=
  size <- align 32 size 8 ;; ' (o, r) <- p_reserve r size 8 ;; p_claim_dir r 4 o size.

(** * Writing: on the buffer (CountingBuffer over Vec<u8>: src/write/util.rs 144-172, 31-55) *)
Definition p_resize (b : bytes) (n : Z) : out bytes := if n <? zlen b then Panic else Ok (b ++ zeros (n - zlen b)).
(** 160-162 [write_align], 176-179 [pad_until] *)
Definition p_write_align (b : bytes) (align_start : Z) : out bytes := n <- align 64 (zlen b) align_start ;; p_resize b n.
Definition p_pad_until (b : bytes) (offset : Z) : out bytes := if offset <? zlen b then Panic else p_resize b offset.
(** 165-167 [write_file_align] *)
Definition p_write_file_align (c : pcfg) (b : bytes) : out bytes := p_write_align b (pc_falign c).
(** 196-206 [write_custom_dos_header]: 64 bytes *)
Definition p_write_dos (b h : bytes) : out bytes := if negb (zlen b =? 0) then Panic else Ok (b ++ h).
(** 215-238 [write_empty_dos_header], 252-286 [write_dos_header_and_stub]: the fields before e_lfanew, and the stub *)
Definition halfs (l : list Z) : bytes := concat (map (write_u Little 2) l).
Definition dos_empty : bytes := halfs ([23117] ++ repeat 0 29).
Definition dos_fixed : bytes := halfs ([23117; 144; 3; 0; 4; 0; 65535; 0; 184; 0; 0; 0; 64] ++ repeat 0 17).
Definition dos_stub : bytes :=
  [14; 31; 186; 14; 0; 180; 9; 205; 33; 184; 1; 76; 205; 33; 84; 104; 105; 115; 32; 112; 114; 111; 103; 114; 97; 109; 32; 99; 97; 110; 110; 111;
   116; 32; 98; 101; 32; 114; 117; 110; 32; 105; 110; 32; 68; 79; 83; 32; 109; 111; 100; 101; 46; 13; 13; 10; 36; 0; 0; 0; 0; 0; 0; 0].
Definition p_write_dos_empty (r : pr) (b : bytes) : out bytes := p_write_dos b (dos_empty ++ write_u Little 4 (p_nt r)).
Definition p_write_dos_stub (r : pr) (b : bytes) : out bytes := b <- p_write_dos b (dos_fixed ++ write_u Little 4 (p_nt r)) ;; Ok (b ++ dos_stub).
(** 799-820 [NtHeaders] *)
Record pnt := { pn_machine : Z; pn_time : Z; pn_flags : Z; pn_majlink : Z; pn_minlink : Z; pn_entry : Z; pn_base : Z; pn_majos : Z; pn_minos : Z;
  pn_majimg : Z; pn_minimg : Z; pn_majsub : Z; pn_minsub : Z; pn_subsystem : Z; pn_dll : Z; pn_stackr : Z; pn_stackc : Z; pn_heapr : Z; pn_heapc : Z }.
(** 335-343: the file header; 346-384, 386-424: the optional headers *)
Definition file_header_enc (c : pcfg) (r : pr) (n : pnt) (opt : Z) : bytes :=
  write_u Little 2 (pn_machine n) ++ write_u Little 2 (p_nsec r) ++ write_u Little 4 (pn_time n) ++ write_u Little 4 0 ++ write_u Little 4 0 ++
  write_u Little 2 (wrap_u 16 opt) ++ write_u Little 2 (pn_flags n).
Definition optional_enc (c : pcfg) (r : pr) (n : pnt) : bytes :=
  let w := if pc_is64 c then 8%nat else 4%nat in
  write_u Little 2 (if pc_is64 c then 523 else 267) ++ write_u Little 1 (pn_majlink n) ++ write_u Little 1 (pn_minlink n) ++
  write_u Little 4 (p_cl r) ++ write_u Little 4 (p_dl r) ++ write_u Little 4 (p_bl r) ++ write_u Little 4 (pn_entry n) ++ write_u Little 4 (p_ca r) ++
  (if pc_is64 c then [] else write_u Little 4 (p_da r)) ++ write_u Little w (pn_base n) ++ write_u Little 4 (pc_salign c) ++ write_u Little 4 (pc_falign c) ++
  write_u Little 2 (pn_majos n) ++ write_u Little 2 (pn_minos n) ++ write_u Little 2 (pn_majimg n) ++ write_u Little 2 (pn_minimg n) ++ write_u Little 2 (pn_majsub n) ++ write_u Little 2 (pn_minsub n) ++
  write_u Little 4 0 ++ write_u Little 4 (p_vlen r) ++ write_u Little 4 (p_hlen r) ++ write_u Little 4 0 ++ write_u Little 2 (pn_subsystem n) ++ write_u Little 2 (pn_dll n) ++
  write_u Little w (pn_stackr n) ++ write_u Little w (pn_stackc n) ++ write_u Little w (pn_heapr n) ++ write_u Little w (pn_heapc n) ++ write_u Little 4 0 ++ write_u Little 4 (wrap_u 32 (zlen (p_dirs r))).
Definition dirs_enc (l : list (Z * Z)) : bytes := concat (map (fun d => write_u Little 4 (fst d) ++ write_u Little 4 (snd d)) l).
(** 332-434 [write_nt_headers] *)
Definition p_write_nt (c : pcfg) (r : pr) (n : pnt) (b : bytes) : out bytes :=
  b <- p_pad_until b (p_nt r) ;;
  opt <- p_opt_size c r ;;
  Ok (b ++ write_u Little 4 17744 ++ file_header_enc c r n opt ++ optional_enc c r n ++ dirs_enc (p_dirs r)).
(** 455-473 [write_section_headers] *)
Definition sechdr_enc (s : psec) : bytes :=
  ps_name s ++ write_u Little 4 (ps_vs s) ++ write_u Little 4 (ps_va s) ++ write_u Little 4 (ps_fs s) ++ write_u Little 4 (ps_fo s) ++
  write_u Little 4 0 ++ write_u Little 4 0 ++ write_u Little 2 0 ++ write_u Little 2 0 ++ write_u Little 4 (ps_flags s).
Definition p_write_sechdrs (r : pr) (b : bytes) : out bytes := if negb (p_nsec r =? zlen (p_secs r)) then Panic else Ok (b ++ concat (map sechdr_enc (p_secs r))).
(** 529-536 [write_section] *)
Definition p_write_section (c : pcfg) (b : bytes) (offset : Z) (data : bytes) : out bytes :=
  match data with [] => Ok b | _ => b <- p_pad_until b offset ;; p_write_align (b ++ data) (pc_falign c) end.
(** 751-771 [write_reloc_section]; the slice panics *)
Fixpoint p_write_blocks (relocs : list Z) (l : list (Z * Z)) (total : Z) (b : bytes) : out bytes :=
  match l with
  | [] => if negb (total =? zlen relocs) then Panic else Ok b
  | (va, n) :: l =>
    size <- p_block_size (va, n) ;;
    tl <- unwrap (get_from relocs total) ;;
    x <- unwrap (get_to tl n) ;;
    p_write_blocks relocs l (total + n) (b ++ write_u Little 4 va ++ write_u Little 4 size ++ halfs x)
  end.
Definition p_write_reloc (c : pcfg) (r : pr) (b : bytes) : out bytes :=
  if p_roff r =? 0 then Ok b else
  b <- p_pad_until b (p_roff r) ;; b <- p_write_blocks (p_relocs r) (p_blocks r) 0 b ;; p_write_align b (pc_falign c).
(** 789-795 [write_certificate_table] *)
Definition p_write_cert (r : pr) (b data : bytes) : out bytes :=
  d <- unwrap (zget (p_dirs r) 4) ;;
  b <- p_pad_until b (fst d) ;; e <- padd 32 (fst d) (snd d) ;; p_pad_until (b ++ data) e.

(** * A program that writes an image, in the documented order *)
(** DOS header: without a stub, with the fixed stub, or the caller's (60 bytes before e_lfanew, and a stub) *)
Inductive pdos := DosEmpty | DosFixed | DosCustom (header stub : bytes).
(** Sections: 541-685 *)
Inductive pitem := PText (d : bytes) | PData (vsize : Z) (d : bytes) | PRdata (d : bytes) | PBss (size : Z) | PIdata (d : bytes) | PEdata (d : bytes) | PPdata (d : bytes)
  | PXdata (d : bytes) | PRsrc (d : bytes) | PReloc | PCustom (name : bytes) (flags vsize : Z) (d : bytes).
Record pimg := { pi_cfg : pcfg; pi_dos : pdos; pi_rich : bytes; pi_nt : pnt; pi_ndirs : Z; pi_relocs : list (Z * Z); pi_items : list pitem;
  pi_sets : list (Z * (Z * Z)); pi_cert : option bytes }.
Definition p_reserve_item (c : pcfg) (r : pr) (i : pitem) : out (psec * pr) :=
  match i with
  | PText d => p_reserve_section c r (str ".text" ++ [0; 0; 0]) 1610612768 (zlen d) (zlen d)
  | PData v d => p_reserve_section c r (str ".data" ++ [0; 0; 0]) 3221225536 v (zlen d)
  | PRdata d => p_reserve_section c r (str ".rdata" ++ [0; 0]) 1073741888 (zlen d) (zlen d)
  | PBss n => p_reserve_section c r (str ".bss" ++ [0; 0; 0; 0]) 3221225600 n 0
  | PIdata d => p_reserve_dir_section c r (str ".idata" ++ [0; 0]) 3221225536 (zlen d) 1
  | PEdata d => p_reserve_dir_section c r (str ".edata" ++ [0; 0]) 1073741888 (zlen d) 0
  | PPdata d => p_reserve_dir_section c r (str ".pdata" ++ [0; 0]) 1073741888 (zlen d) 3
  | PXdata d => p_reserve_section c r (str ".xdata" ++ [0; 0]) 1073741888 (zlen d) (zlen d)
  | PRsrc d => p_reserve_dir_section c r (str ".rsrc" ++ [0; 0; 0]) 1073741888 (zlen d) 2
  | PReloc => p_reserve_reloc c r
  | PCustom n f v d => p_reserve_section c r n f v (zlen d)
  end.
Fixpoint p_reserve_items (c : pcfg) (r : pr) (l : list pitem) : out (list psec * pr) :=
  match l with [] => Ok ([], r) | i :: l => ' (s, r) <- p_reserve_item c r i ;; ' (t, r) <- p_reserve_items c r l ;; Ok (s :: t, r) end.
Definition item_data (i : pitem) : bytes :=
  match i with PText d | PData _ d | PRdata d | PIdata d | PEdata d | PPdata d | PXdata d | PRsrc d | PCustom _ _ _ d => d | PBss _ | PReloc => [] end.
Definition p_write_item (c : pcfg) (r : pr) (i : pitem) (s : psec) (b : bytes) : out bytes :=
  match i with PReloc => p_write_reloc c r b | i => p_write_section c b (ps_fo s) (item_data i) end.
Fixpoint p_write_items (c : pcfg) (r : pr) (l : list (pitem * psec)) (b : bytes) : out bytes :=
  match l with [] => Ok b | (i, s) :: l => b <- p_write_item c r i s b ;; p_write_items c r l b end.
Fixpoint p_add_relocs (r : pr) (l : list (Z * Z)) : out pr := match l with [] => Ok r | (va, t) :: l => r <- p_add_reloc r va t ;; p_add_relocs r l end.
Fixpoint p_set_all (r : pr) (l : list (Z * (Z * Z))) : out pr := match l with [] => Ok r | (i, (va, n)) :: l => r <- p_set_dir r i va n ;; p_set_all r l end.
(** First phase.  What comes between the DOS header and the NT headers (a Rich header, say) is reserved with alignment 4. *)
Definition p_reserve_all (img : pimg) : out (list psec * pr) :=
  let c := pi_cfg img in
  r <- match pi_dos img with
       | DosEmpty => p_reserve_dos p_new
       | DosFixed => p_reserve_dos_stub p_new
       | DosCustom _ s => r <- p_reserve_dos p_new ;; ' (_, r) <- p_reserve r (zlen s) 1 ;; Ok r
       end ;;
  ' (_, r) <- p_reserve r (zlen (pi_rich img)) 4 ;;
  r <- p_reserve_nt c r (pi_ndirs img) ;;
  r <- p_add_relocs r (pi_relocs img) ;;
  r <- p_reserve_sechdrs c r (wrap_u 16 (zlen (pi_items img))) ;;
  ' (l, r) <- p_reserve_items c r (pi_items img) ;;
  r <- p_set_all r (pi_sets img) ;;
  r <- match pi_cert img with Some d => p_reserve_cert r (zlen d) | None => Ok r end ;;
  Ok (l, r).
(** Second phase *)
Definition p_write_all (img : pimg) (l : list psec) (r : pr) : out bytes :=
  let c := pi_cfg img in
  b <- match pi_dos img with
       | DosEmpty => p_write_dos_empty r []
       | DosFixed => p_write_dos_stub r []
       | DosCustom h s => b <- p_write_dos [] (h ++ write_u Little 4 (p_nt r)) ;; Ok (b ++ s)
       end ;;
  b <- match pi_rich img with [] => Ok b | x => b <- p_write_align b 4 ;; Ok (b ++ x) end ;;
  b <- p_write_nt c r (pi_nt img) b ;;
  b <- p_write_sechdrs r b ;;
  b <- p_write_items c r (combine (pi_items img) l) b ;;
  match pi_cert img with Some d => p_write_cert r b d | None => Ok b end.
(** the reserved length and the file *)
Definition pe_write (img : pimg) : out (Z * bytes) := ' (l, r) <- p_reserve_all img ;; b <- p_write_all img l r ;; Ok (p_len r, b).
