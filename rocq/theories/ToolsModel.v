(** Model of the input and output helpers of tools/emv-decode.c and
    tools/print_helpers.c, and of the event filter of src/emv_debug.c. *)
From Verif Require Import Base BerModel TlvModel.

(** isspace and isxdigit in the C locale.  A character is the octet it is
    stored as; the library's tables answer "no" for octets above 7F whether char
    is signed or not. *)
Definition is_space (c : Z) : bool := (c =? 0x20) || ((0x09 <=? c) && (c <=? 0x0D)).
Definition is_xdigit (c : Z) : bool :=
  ((0x30 <=? c) && (c <=? 0x39)) || ((0x41 <=? c) && (c <=? 0x46)) || ((0x61 <=? c) && (c <=? 0x66)).
(** strtoul(str, NULL, 16) for a string of two hex digits. *)
Definition xvalue (c : Z) : Z := if c <=? 0x39 then c - 0x30 else if c <=? 0x46 then c - 0x37 else c - 0x57.
Definition strtoul16 (str : list Z) : out Z :=
  let* a := rd str 0 in let* b := rd str 1 in Ret (xvalue a * 16 + xvalue b).

(** tools/emv-decode.c lines 347-364: the loop over characters until two digits
    are found.  The result is None for return value -2, otherwise the
    position, the local array [str] and [str_idx]. *)
Fixpoint hex_two (fuel : nat) (s : list Z) (i : nat) (str : list Z) (k : nat)
  : out (option (nat * list Z * nat)) :=
  match fuel with
  | O => NoFuel
  | S fuel =>
    let* c := rd s i in
    if (c =? 0) || Nat.leb 2 k then Ret (Some (i, str, k))
    else if is_space c then hex_two fuel s (S i) str k
    else if negb (is_xdigit c) then Ret None
    else let* str := wr str k c in hex_two fuel s (S i) str (S k)
  end.

(** tools/emv-decode.c lines 345-374: the outer loop. The result is the return
    value, the output buffer and *buf_len. *)
Fixpoint hex_loop (fuel : nat) (s : list Z) (i : nat) (max : nat) (buf : list Z) (n : nat)
  : out (Z * list Z * nat) :=
  match fuel with
  | O => NoFuel
  | S fuel =>
    let* c := rd s i in
    if (c =? 0) || Nat.eqb max 0 then Ret (0, buf, n)
    else
      let* x := hex_two (S (length s)) s i [0; 0; 0] 0 in
      match x with
      | None => Ret (-2, buf, n)
      | Some (i, str, k) =>
        if negb (Nat.eqb k 2) then Ret (1, buf, n)
        else
          let* str := wr str 2 0 in
          let* b := strtoul16 str in
          let* buf := wr buf n (u8 b) in
          hex_loop fuel s i (max - 1) buf (S n)
      end
  end.

(** tools/emv-decode.c lines 335-377 [parse_hex] for the string [text], which
    is ended by a NUL. *)
Definition parse_hex (text buf : list Z) (max : nat) : out (Z * list Z * nat) :=
  hex_loop (S (length text)) (text ++ [0]) 0 max buf 0.

(** tools/emv-decode.c lines 227-231: the call for the INPUT argument; [junk]
    is what malloc returned. *)
Definition parse_arg (arg junk : list Z) : out (Z * list Z * nat) :=
  parse_hex arg junk ((length arg + 1) / 2).

(** A stream: reading at most [n] octets gives the octets read, whether the end
    of the file was met and whether there was an error. *)
Definition stream St := St -> nat -> list Z * bool * bool * St.

(** tools/emv-decode.c lines 380-409 [load_from_file].  realloc keeps the
    contents; new memory contains [junk]. *)
Fixpoint load_loop {St} (block : nat) (fuel : nat) (fread : stream St) (junk : Z) (s : St) (buf : list Z) (total : nat)
  : out (option (list Z * nat)) :=
  match fuel with
  | O => NoFuel
  | S fuel =>
    let buf := buf ++ repeat junk block in
    let '(data, eof, err, s) := fread s block in
    let* buf := put buf total data in
    let total := (total + length data)%nat in
    if (err : bool) then Ret None
    else if (eof : bool) then Ret (Some (buf, total))
    else load_loop block fuel fread junk s buf total
  end.
Definition load_from_file {St} (fuel : nat) (fread : stream St) (junk : Z) (s : St) :=
  load_loop (Z.to_nat 4096) fuel fread junk s [] 0.

(** What a dump prints. *)
Inductive note :=
| NNone                      (* nothing after the octets *)
| NText (v : list Z)         (* the value as text *)
| NLong                      (* "..." *)
| NOid (arcs : list Z)       (* the arcs of an object identifier *)
| NInfo (t : list Z).        (* the description of an EMV field *)
Inductive event :=
| ELeaf (depth : nat) (tag : Z) (v : list Z) (n : note)  (* primitive: tag, length, octets *)
| ENode (depth : nat) (tag len : Z)                      (* constructed: tag, length *)
| EPad (depth : nat) (p : list Z)                        (* padding and its octets *)
| EErr (r : Z)                                           (* BER decoding error *)
| EFailed                                                (* BER decoding failed *)
| ERest (off : Z) (p : list Z).                          (* remaining invalid data *)

(** What is printed for a primitive field; [inr]: the loop is left with [r]. *)
Definition leaf_fun := ber_tlv -> out (note + Z).

(** tools/print_helpers.c lines 432-458: after the loop, which ended with [r]. *)
Definition dump_end (buf : list Z) (valid : Z) (depth : nat) (ign : bool) (r : Z) : list event * Z :=
  if r <? 0 then
    if (ign && (valid <? Zlen buf) &&
        (((Z.land (Zlen buf) 0x7 =? 0) && (Zlen buf - valid <? 8)) ||
         ((Z.land (Zlen buf) 0xF =? 0) && (Zlen buf - valid <? 15))))%bool
    then ([EPad depth (skipn (Z.to_nat valid) buf)], Zlen buf)
    else ([EErr r], valid)
  else ([], valid).

(** tools/print_helpers.c lines 339-461 [print_ber_buf_internal] and lines
    501-633 [print_emv_buf_internal]: both are this function, with what they
    print for a primitive field as [leaf].  [valid] is the local valid_bytes,
    [itr] the iterator.  The result is what is printed and the return value. *)
Fixpoint dump_loop (leaf : leaf_fun) (fuel : nat) (buf itr : list Z) (valid : Z) (depth : nat) (ign : bool)
  : out (list event * Z) :=
  match fuel with
  | O => NoFuel
  | S fuel =>
    let* (r, t, itr') := ber_itr_next itr in
    if r <=? 0 then Ret (dump_end buf valid depth ign r)
    else match t with
    | None => UB
    | Some t =>
      if ber_is_constructed t then
        let valid := valid + (r - b_len t) in
        let* (evs, r2) := dump_loop leaf fuel (b_val t) (b_val t) 0 (S depth) ign in
        let evs := ENode depth (b_tag t) (b_len t) :: evs in
        if r2 <? 0 then Ret (evs, r2)
        else
          let valid := valid + r2 in
          if r2 <? b_len t then Ret (evs, valid)
          else
            let* (evs', e) := dump_loop leaf fuel buf itr' valid depth ign in
            Ret (evs ++ evs', e)
      else
        let valid := valid + r in
        let* x := leaf t in
        match x with
        | inr r =>
          let (evs, e) := dump_end buf valid depth ign r in
          Ret (ELeaf depth (b_tag t) (b_val t) NNone :: evs, e)
        | inl n =>
          let* (evs, e) := dump_loop leaf fuel buf itr' valid depth ign in
          Ret (ELeaf depth (b_tag t) (b_val t) n :: evs, e)
        end
    end
  end.

(** tools/print_helpers.c lines 397-426: primitive fields in [print_ber_buf].
    The local array [str] has 1024 elements. *)
Definition ber_leaf (t : ber_tlv) : out (note + Z) :=
  if ber_is_string (b_tag t) then
    if b_len t <? 1024 then
      let* str := put (repeat 0 (Z.to_nat 1024)) 0 (b_val t) in
      let* str := wr str (Z.to_nat (b_len t)) 0 in
      Ret (inl (NText (b_val t)))
    else Ret (inl NLong)
  else if b_tag t =? 0x06 then
    let* (r, o) := oid_decode (b_val t) in
    if negb (r =? 0) then Ret (inr r)
    else let* arcs := sub (o_value o) 0 (o_length o) in Ret (inl (NOid arcs))
  else Ret (inl NNone).

(** tools/print_helpers.c lines 463-490 [print_ber_buf], lines 635-662
    [print_emv_buf].  Comparing r with the size_t len converts a negative r to a
    large value. *)
Definition dump (leaf : leaf_fun) (buf : list Z) (depth : nat) (ign : bool) : out (list event) :=
  let* (evs, r) := dump_loop leaf (S (length buf)) buf (ber_itr_init buf) 0 depth ign in
  Ret (evs ++ (if r <? 0 then [EFailed] else []) ++
       (if ((0 <=? r) && (r <? Zlen buf))%bool then [ERest r (skipn (Z.to_nat r) buf)] else [])).
Definition print_ber_buf := dump ber_leaf.
(** tools/print_helpers.c lines 526-600: what [emv_tlv_get_info] and the
    functions printing lists say about a field is not modelled; [info] stands
    for it. *)
Definition print_emv_buf (info : Z -> list Z -> list Z) :=
  dump (fun t => Ret (inl (NInfo (info (b_tag t) (b_val t))))).

(** src/emv_debug.c lines 34-36 and 38-49 [emv_debug_init]: the filter.  The
    callback is a number naming the function. *)
Record dbg := mkdbg { d_mask : Z; d_level : Z; d_func : option nat }.
Definition dbg0 : dbg := mkdbg 0 0 None.
(** What a caller does: set the filter or report an event.  The message is what
    vsnprintf would print into an unlimited buffer, None if it fails; [sec] and
    [nsec] is the time of the event. *)
Inductive dcall :=
| DInit (mask level : Z) (func : option nat)
| DEvent (source level type_ : Z) (msg : option (list Z)) (data : list Z) (sec nsec : Z).
Record delivery := mkdel { v_func : nat; v_time : Z; v_source : Z; v_level : Z; v_type : Z; v_msg : list Z; v_data : list Z }.

(** src/emv_debug.c lines 51-100 [emv_debug_internal].  The buffer [str] has
    1024 characters. *)
Definition debug_step (d : dbg) (c : dcall) : dbg * list delivery :=
  match c with
  | DInit m l f => (mkdbg m l f, [])
  | DEvent src lev ty msg data sec nsec =>
    (d, match d_func d with
        | None => []
        | Some f =>
          if Z.land (d_mask d) src =? 0 then []
          else if d_level d <? lev then []
          else match msg with
               | None => []
               | Some m => [mkdel f (u32 (sec * 1000000 + nsec / 1000)) src lev ty (firstn (Z.to_nat 1023) m) data]
               end
        end)
  end.
Fixpoint debug_run (d : dbg) (cs : list dcall) : list delivery :=
  match cs with
  | [] => []
  | c :: cs => let (d, out) := debug_step d c in out ++ debug_run d cs
  end.
