(** Model of what emv_tal_read_afl_records and emv_tal_read_sfi_records (src/emv_tal.c) tell through emv_debug_error
    and emv_debug_info while the application data are read.  The results are those of TalModel.v; messages as in
    DirModel.v. *)
From Coq Require Import String.
From Verif Require Import Base BerModel TlvListModel TlvModel DolModel TtlModel FieldsModel AppModel TalModel StrModel FlagsModel PrintModel DirModel.
Open Scope string_scope.
Open Scope Z_scope.
Open Scope list_scope.
Notation length := List.length.

Section Rec.
Context {T : Type} (x : transport T).

(** emv_tal.c:795-869: a record that was read; [oda] is oda_record_invalid.  (Return code, whether it invalidates
    offline data authentication, the list, the messages.) *)
Definition sfi_record_n (sfi : Z) (rec : list Z) (oda : bool) (l : list field) (n : list note) : out (Z * bool * list field * list note) :=
  let* b0 := rd rec 0 in
  let low := ((1 <=? sfi) && (sfi <=? 10))%bool in
  if negb (b0 =? 0x70) then
    Ret (if low then (TAL_READ_RECORD_INVALID, false, l, n ++ [Err (lit "Invalid record for SFI " ++ p_dec sfi)])
         else (0, true, l, n ++ [Err (lit "Offline data authentication not possible due to invalid record")]))
  else
  let* bad :=
    if low then
      let* (r, t) := ber_decode rec in
      if r <=? 0 then Ret [Err (lit "Failed to parse record template")]
      else match t with
      | None => UB
      | Some t =>
        Ret (if negb (b_tag t =? 0x70) then [Err (lit "Invalid record template tag 0x" ++ p_X2 (b_tag t))]
             else if u32 (b_len t + 3) <? Zlen rec then [Err (lit "Invalid record template length " ++ p_dec (b_len t))]
             else [])
      end
    else Ret [] in
  match bad with
  | _ :: _ => Ret (TAL_READ_RECORD_INVALID, false, l, n ++ bad)
  | [] =>
    let n := if oda then n
             else n ++ [Info (if low then lit "Record template content used for offline data authentication"
                              else lit "Record used verbatim for offline data authentication")] in
    let* (r, l) := tlv_parse rec l in
    Ret (if r <? 0 then (TAL_INTERNAL, false, l, n ++ [Err (lit "Internal error")])
         else if 0 <? r then (TAL_READ_RECORD_PARSE_FAILED, false, l, n ++ [Err (lit "Failed to parse application data record")])
         else (0, false, l, n))
  end.
(** emv_tal.c:758-878: the loop over the records of an AFL entry. *)
Fixpoint sfi_loop_n (fuel : nat) (s : T) (e : afl_entry) (rec : Z) (oda : bool) (l : list field) (n : list note)
  : out (Z * list field * T * list note) :=
  match fuel with
  | O => NoFuel
  | Datatypes.S fuel =>
    if a_last e <? rec then Ret (if oda then TAL_ODA_RECORD_INVALID else 0, l, s, n)
    else
    let n := n ++ [Info (lit "READ RECORD from SFI " ++ p_dec (a_sfi e) ++ lit ", record " ++ p_dec rec)] in
    let* a := x_read x s (a_sfi e) rec in
    if negb (n_ret a =? 0) then Ret (TAL_TTL_FAILURE, l, n_st a, n ++ [Err (lit "TTL failure")])
    else if negb (n_sw a =? 0x9000) then Ret (TAL_READ_RECORD_FAILED, l, n_st a, n ++ [Err (lit "Failed to READ RECORD")])
    else
    let* (r, inv, l, n) := sfi_record_n (a_sfi e) (n_data a) oda l n in
    if negb (r =? 0) then Ret (r, l, n_st a, n)
    else sfi_loop_n fuel (n_st a) e (u8 (rec + 1)) (oda || inv)%bool l n
  end.
(** emv_tal.c:916-943: the loop over the AFL entries; oda_record_invalid of emv_tal_read_sfi_records starts anew. *)
Fixpoint afl_loop_n (fuel : nat) (rfuel : nat) (s : T) (itr : list Z) (oda : bool) (l : list field) (n : list note)
  : out (Z * list field * T * list note) :=
  match fuel with
  | O => NoFuel
  | Datatypes.S fuel =>
    let* (r, e, itr) := afl_itr_next itr in
    if 0 <? r then
      match e with
      | None => UB
      | Some e =>
        let* (r, l, s, n) := sfi_loop_n rfuel s e (a_first e) false l n in
        if r =? 0 then afl_loop_n fuel rfuel s itr oda l n
        else if r =? TAL_ODA_RECORD_INVALID then afl_loop_n fuel rfuel s itr true l n
        else Ret (r, l, s, n)
      end
    else if r <? 0 then Ret (TAL_AFL_INVALID, l, s, n ++ [Err (lit "AFL parse error")])
    else Ret (if oda then TAL_ODA_RECORD_INVALID else 0, l, s, n)
  end.
(** emv_tal.c:881-944, emv_tal_read_afl_records. *)
Definition read_afl_n (rfuel : nat) (s : T) (afl : list Z) (l : list field) : out (Z * list field * T * list note) :=
  if (length afl =? 0)%nat then Ret (TAL_INVALID_PARAMETER, l, s, [])
  else match afl_itr_init afl with
  | (r, Some itr) => afl_loop_n (Datatypes.S (length afl)) rfuel s itr false l []
  | (r, None) => Ret (if r <? 0 then (TAL_INTERNAL, l, s, [Err (lit "Internal error")]) else (TAL_AFL_INVALID, l, s, [Err (lit "Invalid AFL")]))
  end.
End Rec.
