(** Model of src/emv_dol.c and src/iso7816_compact_tlv.c.  Pointers are non-NULL
    unless said otherwise; a TLV list is the sequence of its fields. *)
From Verif Require Import Base BerModel TlvListModel TlvModel.

(** src/emv_dol.c lines 28-69 [emv_dol_decode]; the result is the return value
    and the entry (tag, length) if it has been written completely. *)
Definition dol_decode (buf : list Z) : out (Z * option (Z * Z)) :=
  if Nat.eqb (length buf) 0 then Ret (0, None)                       (* 37-40 *)
  else if Nat.ltb (length buf) 2 then Ret (-2, None)                 (* 44-46 *)
  else
    let* (r, tag) := ber_tag_decode buf in                           (* 52-56 *)
    if r <=? 0 then Ret (r, None)
    else if Nat.leb (length buf) (Z.to_nat r) then Ret (-5, None)    (* 59-62 *)
    else
      let* l := rd buf (Z.to_nat r) in
      Ret (r + 1, Some (tag, l)).

(** src/emv_dol.c lines 71-99 [emv_dol_itr_init], [emv_dol_itr_next]; the
    iterator is the remaining buffer. *)
Definition dol_itr_next (itr : list Z) : out (Z * option (Z * Z) * list Z) :=
  let* (r, e) := dol_decode itr in
  if 0 <? r then
    let* itr' := sub itr (Z.to_nat r) (length itr - Z.to_nat r) in Ret (r, e, itr')
  else Ret (r, e, itr).

(** The loop [while ((r = emv_dol_itr_next(&itr, &entry)) > 0)]: the entries
    visited and the last return value. *)
Fixpoint dol_itr_all (fuel : nat) (itr : list Z) : out (list (Z * Z) * Z) :=
  match fuel with
  | O => NoFuel
  | S fuel' =>
    let* (r, e, itr') := dol_itr_next itr in
    if r <=? 0 then Ret ([], r)
    else match e with
         | None => UB
         | Some e => let* (es, x) := dol_itr_all fuel' itr' in Ret (e :: es, x)
         end
  end.

(** src/emv_dol.c lines 116-118: adding to the [int] total; exceeding INT_MAX is
    undefined. *)
Fixpoint dol_length_loop (fuel : nat) (itr : list Z) (total : Z) : out Z :=
  match fuel with
  | O => NoFuel
  | S fuel' =>
    let* (r, e, itr') := dol_itr_next itr in
    if r <=? 0 then Ret (if r =? 0 then total else -3)               (* 119-124 *)
    else match e with
         | None => UB
         | Some (_, l) =>
           if 2147483647 <? total + l then UB else dol_length_loop fuel' itr' (total + l)
         end
  end.
(** src/emv_dol.c lines 101-125 [emv_dol_compute_data_length] *)
Definition dol_compute_data_length (buf : list Z) : out Z :=
  if Nat.eqb (length buf) 0 then Ret (-1)
  else dol_length_loop (S (length buf)) buf 0.

(** src/emv_tlv.c lines 179-194 [emv_tlv_list_find] on the sequence of fields
    (TlvListProps.v, C09) and src/emv_dol.c lines 166-171: first source that has
    the tag. *)
Definition find_tag (tag : Z) (l : list field) : option field := find (fun f => f_tag f =? tag) l.
Fixpoint find_in_sources (tag : Z) (sources : list (list field)) : option field :=
  match sources with
  | [] => None
  | s :: rest => match find_tag tag s with
                 | Some f => Some f
                 | None => find_in_sources tag rest
                 end
  end.

(** src/emv_dol.c lines 172-216: the octets copied for one entry; reads of
    [tlv->value] are checked. *)
Definition dol_entry_data (tlv : option field) (n : Z) : out (list Z) :=
  match tlv with
  | None => Ret (repeat 0 (Z.to_nat n))                              (* 172-179 *)
  | Some f =>
    if f_len f =? n then sub (f_val f) 0 (Z.to_nat n)                (* 181-187 *)
    else if n <? f_len f then                                        (* 189-201 *)
      let offset := if is_terminal_format_n (f_tag f) then f_len f - n else 0 in
      sub (f_val f) (Z.to_nat offset) (Z.to_nat n)
    else                                                             (* 203-218 *)
      let pad := repeat 0 (Z.to_nat (n - f_len f)) in
      let* v := sub (f_val f) 0 (Z.to_nat (f_len f)) in
      Ret (if is_terminal_format_n (f_tag f) then pad ++ v else v ++ pad)
  end.

(** src/emv_dol.c lines 155-226: [pos] is [data_ptr - data], [dlen] is
    [*data_len].  The result is the return value, the data buffer and
    [*data_len].  The one or two writes of an entry cover exactly the [n] octets at
    [pos], so they are one checked write. *)
Fixpoint dol_build_loop (fuel : nat) (itr : list Z) (sources : list (list field))
    (data : list Z) (pos : nat) (dlen : Z) : out (Z * list Z * Z) :=
  match fuel with
  | O => NoFuel
  | S fuel' =>
    let* (r, e, itr') := dol_itr_next itr in
    if r <=? 0 then
      if r =? 0 then Ret (0, data, Z.of_nat pos) else Ret (-5, data, dlen)   (* 220-226 *)
    else
      match e with
      | None => UB
      | Some (tag, n) =>
        if dlen <? n then Ret (1, data, dlen)                        (* 158-161 *)
        else
          let* v := dol_entry_data (find_in_sources tag sources) n in
          let* data' := put data pos v in
          dol_build_loop fuel' itr' sources data' (pos + Z.to_nat n) (dlen - n)
      end
  end.
(** src/emv_dol.c lines 127-227 [emv_dol_build_data]; [data] are the [*data_len]
    octets of the output buffer.  All source pointers are non-NULL (lines
    142-146 return -2 otherwise). *)
Definition dol_build_data (buf : list Z) (sources : list (list field)) (data : list Z)
  : out (Z * list Z * Z) :=
  if (Nat.eqb (length buf) 0 || Nat.eqb (length sources) 0 || Nat.eqb (length data) 0)%bool
  then Ret (-1, data, Zlen data)
  else dol_build_loop (S (length buf)) buf sources data 0 (Zlen data).

(** src/iso7816_compact_tlv.h [struct iso7816_compact_tlv_t] *)
Record ctlv := mkCtlv { c_tag : Z; c_len : Z; c_val : list Z }.

(** src/iso7816_compact_tlv.c lines 24-54 [iso7816_compact_tlv_decode]; [c_val]
    are the [length] octets at [value]. *)
Definition ctlv_decode (buf : list Z) : out (Z * option ctlv) :=
  if Nat.eqb (length buf) 0 then Ret (0, None)
  else
    let* b := rd buf 0 in
    let tag := Z.shiftr b 4 in
    let len := Z.land b 0xF in
    if Zlen buf - 1 <? len then Ret (-3, None)
    else
      let* v := sub buf 1 (Z.to_nat len) in
      Ret (len + 1, Some (mkCtlv tag len v)).

(** src/iso7816_compact_tlv.c lines 56-88 [iso7816_compact_tlv_itr_init] and
    [iso7816_compact_tlv_itr_next]. *)
Definition ctlv_itr_init (buf : list Z) : Z * option (list Z) :=
  if Nat.eqb (length buf) 0 then (-1, None) else (0, Some buf).
Definition ctlv_itr_next (itr : list Z) : out (Z * option ctlv * list Z) :=
  let* (r, t) := ctlv_decode itr in
  if r <=? 0 then Ret (r, t, itr)
  else
    let* itr' := sub itr (Z.to_nat r) (length itr - Z.to_nat r) in Ret (r, t, itr').

(** The loop [while ((r = iso7816_compact_tlv_itr_next(&itr, &tlv)) > 0)] of the
    callers, e.g. tools/print_helpers.c. *)
Fixpoint ctlv_itr_all (fuel : nat) (itr : list Z) : out (list ctlv * Z) :=
  match fuel with
  | O => NoFuel
  | S fuel' =>
    let* (r, t, itr') := ctlv_itr_next itr in
    if r <=? 0 then Ret ([], r)
    else match t with
         | None => UB
         | Some t => let* (ts, x) := ctlv_itr_all fuel' itr' in Ret (t :: ts, x)
         end
  end.
