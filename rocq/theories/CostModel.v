(** The functions of BerModel.v and TlvModel.v that call themselves, with the number of calls of
    iso8825_ber_decode made and the number of frames on the stack while they run.  They make the same calls in
    the same order; CostProofs.v shows that they return the same. *)
From Verif Require Import Base BerModel TlvListModel TlvModel.

(** Calls of iso8825_ber_decode, and the largest number of frames of iso8825_ber_decode,
    iso8825_ber_itr_next and emv_tlv_parse at one time. *)
Definition cost := (Z * Z)%type.
(** one call that makes no other *)
Definition leaf_cost : cost := (1, 1).
(** first [a], then [b] *)
Definition then_cost (a b : cost) : cost := (fst a + fst b, Z.max (snd a) (snd b)).

(** iso8825_ber.c:84-202 [iso8825_ber_decode] and 130-152, the loop that calls it for the contents of an object
    of indefinite length (134). *)
Fixpoint decode_c (fuel : nat) (buf : list Z) : out (Z * option ber_tlv * cost) :=
  match fuel with
  | O => NoFuel
  | S fuel' =>
    let len := length buf in
    if Nat.eqb len 0 then Ret (0, None, leaf_cost)
    else if Nat.ltb len 2 then Ret (-2, None, leaf_cost)
    else
      let* (r, tag) := ber_tag_decode buf in
      if r <=? 0 then Ret (r, None, leaf_cost)
      else
        let offset := Z.to_nat r in
        if Nat.leb len offset then Ret (-5, None, leaf_cost)
        else
          let* b0 := rd buf 0 in
          let* bl := rd buf offset in
          let finish (offset : nat) (length_ : Z) (c : cost) :=
            if Zlen buf <? Z.of_nat offset + length_ then Ret (-11, None, c)
            else
              let* v := sub buf offset (Z.to_nat length_) in
              Ret (to_int (Z.of_nat offset + length_), Some (mkBer tag length_ offset v (Z.land b0 (Z.lor 0xC0 0x20))), c) in
          if bl =? 0x80 then
            if Z.land b0 0x20 =? 0 then Ret (-6, None, leaf_cost)
            else
              let* (e, length_, c) := indef_c fuel' buf (S offset) 0 in
              let c := (1 + fst c, 1 + snd c) in
              if e <? 0 then Ret (e, None, c) else finish (S offset) length_ c
          else if negb (Z.land bl 0x80 =? 0) then
            let count := Z.to_nat (Z.land bl 0x7F) in
            if Nat.ltb 4 count then Ret (-9, None, leaf_cost)
            else if Nat.ltb len (S offset + count) then Ret (-10, None, leaf_cost)
            else
              let* length_ := ber_len_loop count buf (S offset) 0 in
              finish (S offset + count)%nat length_ leaf_cost
          else finish (S offset) bl leaf_cost
  end
with indef_c (fuel : nat) (buf : list Z) (offset : nat) (length_ : Z) : out (Z * Z * cost) :=
  match fuel with
  | O => NoFuel
  | S fuel' =>
    let* rest := sub buf (offset + Z.to_nat length_) (length buf - (offset + Z.to_nat length_)) in
    let* (r, inner, c) := decode_c fuel' rest in
    if r <? 0 then Ret (-7, 0, c)
    else if r =? 0 then Ret (-8, 0, c)
    else
      match inner with
      | None => UB
      | Some t =>
        if b_tag t =? 0 then Ret (0, length_, c)
        else let* (e, l, c2) := indef_c fuel' buf offset (u32 (length_ + r)) in Ret (e, l, then_cost c c2)
      end
  end.

(** iso8825_ber.c:250-264 [iso8825_ber_itr_next]: one more frame *)
Definition itr_next_c (itr : list Z) : out (Z * option ber_tlv * list Z * cost) :=
  let* (r, t, c) := decode_c (S (length itr)) itr in
  let c := (fst c, 1 + snd c) in
  if 0 <? r then
    let* itr' := sub itr (Z.to_nat r) (length itr - Z.to_nat r) in Ret (r, t, itr', c)
  else Ret (r, t, itr, c).

(** emv_tlv.c:240-272 [emv_tlv_parse], called by itself for templates (253).  The cost is that of the loop,
    without the frame it runs in. *)
Fixpoint parse_loop_c (fuel : nat) (itr : list Z) (l : list field) : out (Z * list field * cost) :=
  match fuel with
  | O => NoFuel
  | S fuel' =>
    let* (r, t, itr', c) := itr_next_c itr in
    if r <=? 0 then Ret (if r <? 0 then 1 else 0, l, c)
    else
      match t with
      | None => UB
      | Some t =>
        if ber_is_constructed t then
          let* (e, l1, c1) := parse_loop_c fuel' (b_val t) l in
          let c := then_cost c (fst c1, 1 + snd c1) in
          if e =? 0 then let* (e, l2, c2) := parse_loop_c fuel' itr' l1 in Ret (e, l2, then_cost c c2)
          else Ret (e, l1, c)
        else
          let* (e, l2, c2) := parse_loop_c fuel' itr' (l ++ [mkField (b_tag t) (b_len t) (b_val t) 0]) in Ret (e, l2, then_cost c c2)
      end
  end.
Definition parse_c (buf : list Z) (l : list field) : out (Z * list field * cost) :=
  let* (e, l, c) := parse_loop_c (S (length buf)) (ber_itr_init buf) l in Ret (e, l, (fst c, 1 + snd c)).
