(** Model of the exports trie of Mach-O files: src/read/macho/exports_trie.rs *)
From Verif Require Export Iter_model.

(** 216-236 [ExportData]; flags as a number (src/macho.rs 3052-3062) *)
Inductive tdata := TRegular (address : Z) | TReexport (ordinal : Z) (import : bytes) | TStub (stub resolver : Z).
(** 239-280 [ExportData::parse]; src/macho.rs 3066-3068 [has_unknown_bits], src/constants.rs 741-743 [contains] *)
Definition tdata_parse (data : bytes) : out (Z * tdata) :=
  fst (do flags, data <- read_uleb128 data ;;
       if negb (Z.land flags (2 ^ 64 - 1 - 63) =? 0) then (Err, data) else
       if Z.land flags 8 =? 8 then
         do o, data <- read_uleb128 data ;;
         do n, data <- b_read_string data ;; (Ok (flags, TReexport o n), data)
       else if Z.land flags 16 =? 16 then
         do a, data <- read_uleb128 data ;;
         do b, data <- read_uleb128 data ;; (Ok (flags, TStub a b), data)
       else do a, data <- read_uleb128 data ;; (Ok (flags, TRegular a), data)).
(** 77-81 [ExportSymbol] *)
Record tsym := { ts_name : bytes; ts_flags : Z; ts_data : tdata }.
(** 106-111 [Frame] *)
Record tframe := { fr_data : bytes; fr_offset : Z; fr_left : Z; fr_len : Z }.
(** 114-120 [NodeIterator]; the data is a parameter; the last frame of the stack comes first *)
Record nodeit := { ni_first : bool; ni_stack : list tframe; ni_name : bytes }.
(** 124-131 [new] *)
Definition node_new : nodeit := {| ni_first := true; ni_stack := []; ni_name := [] |}.
(** 133-165 [push_node]: what it reads: terminal data, number of children, and the rest of the data *)
Definition node_parse (D : bytes) (offset : Z) : out (option (Z * tdata) * Z * bytes) :=
  match get_from D offset with
  | None => Err
  | Some d =>
    fst (do size, d <- read_uleb128 d ;;
         if size =? 0 then do c, d <- b_read d 1 ;; (Ok (None, read_u Little c, d), d) else
         do x, d <- b_read_bytes d size ;;
         match tdata_parse x with
         | Ok e => do c, d <- b_read d 1 ;; (Ok (Some e, read_u Little c, d), d)
         | Err => (Err, d)
         | Panic => (Panic, d)
         end)
  end.
Definition push_node (D : bytes) (st : nodeit) (offset : Z) : out (option tsym) * nodeit :=
  match node_parse D offset with
  | Ok (e, n, d) =>
    (Ok (option_map (fun '(flags, x) => {| ts_name := ni_name st; ts_flags := flags; ts_data := x |}) e),
     {| ni_first := ni_first st; ni_stack := {| fr_data := d; fr_offset := offset; fr_left := n; fr_len := zlen (ni_name st) |} :: ni_stack st; ni_name := ni_name st |})
  | Err => (Err, st)
  | Panic => (Panic, st)
  end.
(** 177-202: the loop of [next] *)
Fixpoint node_loop (D : bytes) (stack : list tframe) (name : bytes) : out (option (option tsym)) * nodeit :=
  match stack with
  | [] => (Ok None, {| ni_first := false; ni_stack := []; ni_name := name |})
  | f :: tl =>
    let name := ztake (fr_len f) name in
    if fr_left f =? 0 then node_loop D tl name else
    let st d n nm := {| ni_first := false; ni_stack := {| fr_data := d; fr_offset := fr_offset f; fr_left := n; fr_len := fr_len f |} :: tl; ni_name := nm |} in
    match b_read_string (fr_data f) with
    | (Ok s, d) =>
      match read_uleb128 d with
      | (Ok o, d) =>
        let st := st d (fr_left f - 1) (name ++ s) in
        if existsb (fun g => fr_offset g =? o) (ni_stack st) then (Err, st) else
        let '(r, st) := push_node D st o in (x <- r ;; Ok (Some x), st)
      | (Err, d) => (Err, st d (fr_left f) name)
      | (Panic, d) => (Panic, st d (fr_left f) name)
      end
    | (Err, d) => (Err, st d (fr_left f) name)
    | (Panic, d) => (Panic, st d (fr_left f) name)
    end
  end.
(** 171-203 [next] *)
Definition node_next (D : bytes) (st : nodeit) : out (option (option tsym)) * nodeit :=
  if ni_first st then
    let '(r, st) := push_node D {| ni_first := false; ni_stack := ni_stack st; ni_name := ni_name st |} 0 in (x <- r ;; Ok (Some x), st)
  else node_loop D (ni_stack st) (ni_name st).
(** 57-64 [ExportsTrieIterator::next]: a loop over the nodes.  [exp_loop k] does up to 2^k steps; [None] means that the loop has not ended. *)
Fixpoint exp_loop (k : nat) (D : bytes) (st : nodeit) : option (out (option tsym)) * nodeit :=
  match k with
  | O => match node_next D st with
         | (Ok (Some (Some x)), st) => (Some (Ok (Some x)), st)
         | (Ok (Some None), st) => (None, st)
         | (Ok None, st) => (Some (Ok None), st)
         | (Err, st) => (Some Err, st)
         | (Panic, st) => (Some Panic, st)
         end
  | S k => match exp_loop k D st with (None, st) => exp_loop k D st | r => r end
  end.
(** A loop that does not end is shown as [Panic]. *)
Definition exp_next (D : bytes) (st : nodeit) : out (option tsym) * nodeit :=
  match exp_loop (8 * (length D + 2)) D st with (Some r, st) => (r, st) | (None, st) => (Panic, st) end.
