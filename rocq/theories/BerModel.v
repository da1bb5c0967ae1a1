(** Model of src/iso8825_ber.c.  Pointers are non-NULL and valid for the length
    passed with them; the NULL checks (lines 32, 90, 206, 238, 252, 272) are not
    modelled.  A buffer argument [(ptr, len)] is the list of its [len] octets. *)
From Verif Require Import Base.

(** src/iso8825_ber.c lines 52-74: the loop over subsequent identifier octets.
    The loop body runs at most three times; [fuel] is given below as 4. *)
Fixpoint ber_tag_loop (fuel : nat) (buf : list Z) (offset : nat) (tag : Z) : out (Z * Z) :=
  match fuel with
  | O => NoFuel
  | S fuel' =>
    if Nat.leb (length buf) offset then Ret (-3, tag)                (* 53-56 *)
    else
      let* b := rd buf offset in
      let tag1 := Z.lor (u32 (Z.shiftl tag 8)) b in                  (* 59-60 *)
      let offset1 := S offset in
      if Z.land b 0x80 =? 0 then Ret (Z.of_nat offset1, tag1)        (* 65-67, 81 *)
      else if Nat.leb 4 offset1 then Ret (-4, tag1)                  (* 69-73 *)
      else ber_tag_loop fuel' buf offset1 tag1
  end.

(** src/iso8825_ber.c lines 27-82 [iso8825_ber_tag_decode].  The result is the
    return value and, when it is written, the tag. *)
Definition ber_tag_decode (buf : list Z) : out (Z * Z) :=
  if Nat.eqb (length buf) 0 then Ret (0, 0)                          (* 35-38 *)
  else
    let* b0 := rd buf 0 in
    if Z.land b0 0x1F =? 0x1F then ber_tag_loop 4 buf 1 b0           (* 46-74 *)
    else Ret (1, b0).                                                (* 75-81 *)

(** src/iso8825_ber.h [struct iso8825_tlv_t].  [b_off] is the position of
    [value] in the buffer that was decoded; [b_val] are the [b_len] octets that
    [value] points to. *)
Record ber_tlv := mkBer {
  b_tag : Z; b_len : Z; b_off : nat; b_val : list Z; b_flags : Z }.

(** src/iso8825_ber.c lines 174-180: the loop over subsequent length octets. *)
Fixpoint ber_len_loop (count : nat) (buf : list Z) (offset : nat) (acc : Z) : out Z :=
  match count with
  | O => Ret acc
  | S count' =>
    let* b := rd buf offset in
    ber_len_loop count' buf (S offset) (Z.lor (u32 (Z.shiftl acc 8)) b)
  end.

(** src/iso8825_ber.c lines 84-202 [iso8825_ber_decode] (first function) and
    lines 130-152, the loop over the contents of an indefinite-length object
    (second function, [length] is the length found so far).  The result is the
    return value and, if the output structure has been completely written, the
    decoded object.  [size_t] is 64 bits, so sums of buffer positions and 32-bit
    lengths do not wrap; [tlv->length] is [unsigned int] and wraps at 2^32; the
    return value is converted to [int]. *)
Fixpoint ber_decode_f (fuel : nat) (buf : list Z) : out (Z * option ber_tlv) :=
  match fuel with
  | O => NoFuel
  | S fuel' =>
    let len := length buf in
    if Nat.eqb len 0 then Ret (0, None)                              (* 93-96 *)
    else if Nat.ltb len 2 then Ret (-2, None)                        (* 100-102 *)
    else
      let* (r, tag) := ber_tag_decode buf in                         (* 105 *)
      if r <=? 0 then Ret (r, None)                                  (* 106-109 *)
      else
        let offset := Z.to_nat r in
        if Nat.leb len offset then Ret (-5, None)                    (* 112-115 *)
        else
          let* b0 := rd buf 0 in
          let* bl := rd buf offset in
          let finish (offset : nat) (length_ : Z) :=                 (* 190-201 *)
            if Zlen buf <? Z.of_nat offset + length_ then Ret (-11, None)
            else
              let* v := sub buf offset (Z.to_nat length_) in
              Ret (to_int (Z.of_nat offset + length_),
                   Some (mkBer tag length_ offset v (Z.land b0 (Z.lor 0xC0 0x20)))) in
          if bl =? 0x80 then                                         (* 118-152 *)
            if Z.land b0 0x20 =? 0 then Ret (-6, None)
            else
              let* (e, length_) := ber_indef_f fuel' buf (S offset) 0 in
              if e <? 0 then Ret (e, None) else finish (S offset) length_
          else if negb (Z.land bl 0x80 =? 0) then                    (* 154-180 *)
            let count := Z.to_nat (Z.land bl 0x7F) in
            if Nat.ltb 4 count then Ret (-9, None)
            else if Nat.ltb len (S offset + count) then Ret (-10, None)
            else
              let* length_ := ber_len_loop count buf (S offset) 0 in
              finish (S offset + count)%nat length_
          else finish (S offset) bl                                  (* 181-187 *)
  end
with ber_indef_f (fuel : nat) (buf : list Z) (offset : nat) (length_ : Z) : out (Z * Z) :=
  match fuel with
  | O => NoFuel
  | S fuel' =>
    let* rest := sub buf (offset + Z.to_nat length_)
                     (length buf - (offset + Z.to_nat length_)) in
    let* (r, inner) := ber_decode_f fuel' rest in                    (* 134 *)
    if r <? 0 then Ret (-7, 0)                                       (* 135-138 *)
    else if r =? 0 then Ret (-8, 0)                                  (* 139-142 *)
    else
      match inner with
      | None => UB      (* inner_tlv.tag would be read uninitialised *)
      | Some t =>
        if b_tag t =? 0 then Ret (0, length_)                        (* 145-147 *)
        else ber_indef_f fuel' buf offset (u32 (length_ + r))        (* 151 *)
      end
  end.

Definition ber_decode (buf : list Z) : out (Z * option ber_tlv) :=
  ber_decode_f (S (length buf)) buf.

(** src/iso8825_ber.c lines 236-264 [iso8825_ber_itr_init] and
    [iso8825_ber_itr_next].  The iterator state is the remaining buffer. *)
Definition ber_itr_init (buf : list Z) : list Z := buf.
Definition ber_itr_next (itr : list Z) : out (Z * option ber_tlv * list Z) :=
  let* (r, t) := ber_decode itr in
  if 0 <? r then
    let* itr' := sub itr (Z.to_nat r) (length itr - Z.to_nat r) in
    Ret (r, t, itr')
  else Ret (r, t, itr).

(** The loop [while ((r = iso8825_ber_itr_next(&itr, &tlv)) > 0)] used by all
    callers (e.g. src/emv_tlv.c lines 253-269): the objects visited, the
    positions at which they started, and the last return value. *)
Fixpoint ber_itr_all (fuel : nat) (itr : list Z) : out (list ber_tlv * Z) :=
  match fuel with
  | O => NoFuel
  | S fuel' =>
    let* (r, t, itr') := ber_itr_next itr in
    if r <=? 0 then Ret ([], r)
    else match t with
         | None => UB
         | Some t =>
           let* (ts, e) := ber_itr_all fuel' itr' in Ret (t :: ts, e)
         end
  end.

(** src/iso8825_ber.c lines 204-234 [iso8825_ber_is_string]; the tag values are
    those of src/iso8825_ber.h lines 40-76. *)
Definition ber_is_string (tag : Z) : bool :=
  existsb (Z.eqb tag)
    [0x07; 0x0C; 0x12; 0x13; 0x14; 0x15; 0x16; 0x17; 0x18; 0x19; 0x1A; 0x1B; 0x1C; 0x1E].

(** src/iso8825_ber.h [struct iso8825_oid_t]: [uint32_t value[10]] followed by
    [unsigned int length]. *)
Record oid := mkOid { o_value : list Z; o_length : nat }.

(** src/iso8825_ber.c lines 301-315: one subidentifier; result is the value and
    the remaining octets.  The reads of [*buf] are guarded by [len], so the
    remaining octets are matched directly. *)
Fixpoint oid_subid (buf : list Z) (subid : Z) : Z * list Z :=
  match buf with
  | [] => (subid, [])
  | b :: rest =>
    let subid' := Z.lor (u32 (Z.shiftl subid 7)) (Z.land b 0x7F) in
    if Z.land b 0x80 =? 0 then (subid', rest) else oid_subid rest subid'
  end.

(** src/iso8825_ber.c lines 297-320.  [sizeof(oid->value)] is 40; the write to
    [oid->value[oid->length]] is checked against the ten elements of [value]. *)
Fixpoint oid_loop (fuel : nat) (buf : list Z) (o : oid) : out oid :=
  match fuel with
  | O => NoFuel
  | S fuel' =>
    match buf with
    | [] => Ret o
    | _ =>
      if Nat.ltb (o_length o) 40 then
        let (subid, rest) := oid_subid buf 0 in
        let* v := wr (o_value o) (o_length o) subid in
        oid_loop fuel' rest (mkOid v (S (o_length o)))
      else Ret o
    end
  end.

(** src/iso8825_ber.c lines 266-323 [iso8825_ber_oid_decode]. *)
Definition oid_zero : oid := mkOid (repeat 0 10) 0.
Definition oid_decode (buf : list Z) : out (Z * oid) :=
  match buf with
  | [] => Ret (-1, oid_zero)                                         (* 272-274 *)
  | b0 :: rest =>
    if Nat.leb 40 (length buf) then Ret (-2, oid_zero)               (* 276-279 *)
    else
      let (v0, v1) := if b0 <? 40 then (0, b0)
                      else if b0 <? 80 then (1, b0 - 40)
                      else (2, b0 - 80) in                           (* 282-291 *)
      let* v := wr (repeat 0 10) 0 v0 in
      let* v := wr v 1 v1 in
      let* o := oid_loop (S (length rest)) rest (mkOid v 2) in
      Ret (0, o)
  end.
