(** Model of [emv_tlv_parse] and of the format conversions of src/emv_tlv.c.
    TLV lists are represented by the sequence of their fields, which is what
    TlvListProps.v proves of the pointer-based implementation. *)
From Verif Require Import Base BerModel TlvListModel.

(** src/iso8825_ber.h line 159 [iso8825_ber_is_constructed] *)
Definition ber_is_constructed (t : ber_tlv) : bool := negb (Z.land (b_flags t) 0x20 =? 0).

(** src/emv_tlv.c lines 240-272 [emv_tlv_parse] for a non-NULL pointer; [itr] is
    the iterator state.  Pushing on a valid list succeeds (lines 260-263 are
    unreachable as [malloc] is assumed not to fail).  The result is the return value
    and the list. *)
Fixpoint tlv_parse_f (fuel : nat) (itr : list Z) (l : list field) : out (Z * list field) :=
  match fuel with
  | O => NoFuel
  | S fuel' =>
    let* (r, t, itr') := ber_itr_next itr in                          (* 251 *)
    if r <=? 0 then Ret (if r <? 0 then 1 else 0, l)                  (* 266-271 *)
    else
      match t with
      | None => UB
      | Some t =>
        if ber_is_constructed t then                                  (* 252-257 *)
          let* (e, l1) := tlv_parse_f fuel' (b_val t) l in
          if e =? 0 then tlv_parse_f fuel' itr' l1 else Ret (e, l1)
        else                                                          (* 259 *)
          tlv_parse_f fuel' itr' (l ++ [mkField (b_tag t) (b_len t) (b_val t) 0])
      end
  end.
Definition tlv_parse (buf : list Z) (l : list field) : out (Z * list field) :=
  tlv_parse_f (S (length buf)) (ber_itr_init buf) l.

(** src/emv_tlv.c lines 274-300 [emv_tlv_is_terminal_format_n] *)
Definition is_terminal_format_n (tag : Z) : bool :=
  existsb (Z.eqb tag)
    [0x9A; 0x9C; 0x5F2A; 0x5F36; 0x5F57; 0x9F01; 0x9F02; 0x9F03; 0x9F15; 0x9F1A; 0x9F21;
     0x9F35; 0x9F39; 0x9F3C; 0x9F3D; 0x9F41].

(** src/emv_tlv.c lines 313-332: copy the characters accepted by [keep] from
    [buf] to [str] at position [i]; [str_len] is [length str - i]. *)
Fixpoint ans_loop (keep : Z -> bool) (buf str : list Z) (i : nat) : out (list Z) :=
  match buf with
  | [] => wr str i 0                                                  (* 332 *)
  | b :: rest =>
    if Nat.eqb (length str - i) 1 then wr str i 0                     (* 314-317 *)
    else if keep b then
      let* str' := wr str i b in ans_loop keep rest str' (S i)
    else ans_loop keep rest str i
  end.

(** src/emv_tlv.c lines 302-335 [emv_format_ans_to_non_control_str]; the string
    buffer [str] is given with its initial contents. *)
Definition ans_to_non_control_str (buf str : list Z) : out (Z * list Z) :=
  if (Nat.eqb (length buf) 0 || Nat.eqb (length str) 0)%bool then Ret (-1, str)
  else
    let* s := ans_loop (fun b => ((0x20 <=? b) && (b <=? 0x7E)) || (0xA0 <=? b))%bool buf str 0 in
    Ret (0, s).

(** src/emv_tlv.c lines 337-375 [emv_format_ans_to_alnum_space_str] *)
Definition ans_to_alnum_space_str (buf str : list Z) : out (Z * list Z) :=
  if (Nat.eqb (length buf) 0 || Nat.eqb (length str) 0)%bool then Ret (-1, str)
  else
    let* s := ans_loop (fun b => ((0x30 <=? b) && (b <=? 0x39)) || ((0x41 <=? b) && (b <=? 0x5A))
                           || ((0x61 <=? b) && (b <=? 0x7A)) || (b =? 0x20))%bool buf str 0 in
    Ret (0, s).

(** src/emv_tlv.c lines 388-413: [i] counts nibbles, [j] is the position in
    [str]. *)
Fixpoint b_to_str_loop (count : nat) (buf str : list Z) (i j : nat) : out (list Z) :=
  match count with
  | O => wr str j 0
  | S count' =>
    if Nat.eqb (length str - j) 1 then wr str j 0
    else
      let* b := rd buf (Nat.div2 i) in
      let digit := if Nat.even i then Z.shiftr b 4 else Z.land b 0x0F in
      let* str' := wr str j (if digit <? 0xA then 0x30 + digit else 0x41 + (digit - 0xA)) in
      b_to_str_loop count' buf str' (S i) (S j)
  end.
(** src/emv_tlv.c lines 377-418 [emv_format_b_to_str] *)
Definition b_to_str (buf str : list Z) : out (Z * list Z) :=
  if (Nat.eqb (length buf) 0 || Nat.eqb (length str) 0)%bool then Ret (-1, str)
  else
    let* s := b_to_str_loop (2 * length buf) buf str 0 0 in Ret (0, s).

(** src/emv_tlv.c lines 432-453: the loop of [emv_uint_to_format_n].  One
    iteration of the loop writes one digit; [even] is [(i & 1) == 0]. *)
Fixpoint uint_to_n_loop (fuel : nat) (value : Z) (buf : list Z) (blen : nat) (even : bool)
  : out (list Z) :=
  match fuel with
  | O => NoFuel
  | S fuel' =>
    if Nat.eqb blen 0 then Ret buf
    else
      let '(digit, value') := if value =? 0 then (0, value) else (value mod 10, value / 10) in
      if even then
        let* buf' := wr buf (blen - 1) digit in
        uint_to_n_loop fuel' value' buf' blen false
      else
        let* b := rd buf (blen - 1) in
        let* buf' := wr buf (blen - 1) (u8 (Z.lor b (Z.shiftl digit 4))) in
        uint_to_n_loop fuel' value' buf' (blen - 1) true
  end.
(** src/emv_tlv.c lines 420-456 [emv_uint_to_format_n]; [None] is the NULL
    result. *)
Definition uint_to_format_n (value : Z) (buf : list Z) : out (option (list Z)) :=
  if Nat.eqb (length buf) 0 then Ret None
  else
    let* b := uint_to_n_loop (S (2 * length buf)) value buf (length buf) true in Ret (Some b).

(** src/emv_tlv.c lines 466-486: the loop of [emv_format_n_to_uint], as a
    traversal of the buffer.  The result is the return value and [*value]. *)
Fixpoint n_to_uint_loop (buf : list Z) (value : Z) : Z * Z :=
  match buf with
  | [] => (0, value)
  | b :: rest =>
    let d1 := Z.shiftr b 4 in
    if 9 <? d1 then (1, value)
    else
      let v1 := u32 (value * 10 + d1) in
      let d2 := Z.land b 0xF in
      if 9 <? d2 then (2, v1)
      else n_to_uint_loop rest (u32 (v1 * 10 + d2))
  end.
(** src/emv_tlv.c lines 458-489 [emv_format_n_to_uint]; the value is [None] if
    it is not written. *)
Definition format_n_to_uint (buf : list Z) : Z * option Z :=
  match buf with
  | [] => (-1, None)
  | _ => let (r, v) := n_to_uint_loop buf 0 in (r, Some v)
  end.

(** src/emv_tlv.c lines 498-502: the loop of [emv_uint_to_format_b]. *)
Fixpoint uint_to_b_loop (blen : nat) (value : Z) (buf : list Z) : out (list Z) :=
  match blen with
  | O => Ret buf
  | S k =>
    let* buf' := wr buf k (Z.land value 0xFF) in
    uint_to_b_loop k (Z.shiftr value 8) buf'
  end.
(** src/emv_tlv.c lines 491-505 [emv_uint_to_format_b] *)
Definition uint_to_format_b (value : Z) (buf : list Z) : out (option (list Z)) :=
  if Nat.eqb (length buf) 0 then Ret None
  else let* b := uint_to_b_loop (length buf) value buf in Ret (Some b).

(** src/emv_tlv.c lines 507-528 [emv_format_b_to_uint] *)
Definition format_b_to_uint (buf : list Z) : Z * option Z :=
  match buf with
  | [] => (-1, None)
  | _ =>
    if Nat.ltb 4 (length buf) then (-2, None)
    else (0, Some (fold_left (fun v b => Z.lor (u32 (Z.shiftl v 8)) b) buf 0))
  end.
