(** Model of what emv_tal_read_pse and emv_tal_parse_aef_record (src/emv_tal.c) tell through emv_debug_error,
    emv_debug_info and emv_debug_info_tlv.  The results are those of TalModel.v; the trace messages are left out, and
    so are the level and the sources that the caller enabled (TraceModel.v). *)
From Coq Require Import String.
From Verif Require Import Base BerModel TlvListModel TlvModel DolModel TtlModel FieldsModel AppModel TalModel StrModel PrintModel.
Open Scope string_scope.
Open Scope Z_scope.
Open Scope list_scope.
Notation length := List.length.

(** A message: its level, its text, and the data of emv_debug_info_tlv. *)
Inductive note := Err (t : list Z) | Info (t : list Z) | Data (t : list Z) (d : list Z).

Section Dir.
Context {T : Type} (x : transport T).
(** Uninitialised local variables: the buffer of emv_app_extract_display_name, and the tag of [tlv] in
    emv_tal_parse_aef_record for each record number (emv_tal.c:230). *)
Context (junk : list Z) (junk_tag : Z -> Z).

(** emv_tal.c:259-292: the loop over the objects of the template. *)
Fixpoint aef_loop_n (fuel : nat) (itr : list Z) (pse supported : list field) (apps : list emvapp) (n : list note)
  : out (list emvapp * list note) :=
  match fuel with
  | O => NoFuel
  | Datatypes.S fuel =>
    let* (r, t, itr) := ber_itr_next itr in
    if r <=? 0 then Ret (apps, n)
    else match t with
    | None => UB
    | Some t =>
      if negb (b_tag t =? 0x61) then
        aef_loop_n fuel itr pse supported apps (n ++ [Err (lit "Unexpected data element 0x" ++ p_X2 (b_tag t) ++ lit " in AEF template")])
      else
      let* a := app_create_from_pse junk pse (b_val t) in
      match a with
      | None => aef_loop_n fuel itr pse supported apps (n ++ [Err (lit "Invalid Application Template content")])
      | Some a =>
        let* ok := app_is_supported (a_aid a) supported in
        if ok then aef_loop_n fuel itr pse supported (apps ++ [a]) (n ++ [Info (lit "Application is supported")])
        else aef_loop_n fuel itr pse supported apps (n ++ [Info (lit "Application is not supported")])
      end
    end
  end.
(** emv_tal.c:218-295, emv_tal_parse_aef_record.  At 243 the tag of the wrong variable is printed, which has no value
    yet: [jt]. *)
Definition parse_aef_n (jt : Z) (pse : list field) (rec : list Z) (supported : list field) (apps : list emvapp) (n : list note)
  : out (Z * list emvapp * list note) :=
  let* (r, t) := ber_decode rec in
  if r <=? 0 then Ret (TAL_PSE_AEF_PARSE_FAILED, apps, n ++ [Err (lit "Failed to parse PSE AEF record")])
  else match t with
  | None => UB
  | Some t =>
    if negb (b_tag t =? 0x70) then
      Ret (TAL_PSE_AEF_INVALID, apps, n ++ [Err (lit "Unexpected data element 0x" ++ p_X2 jt ++ lit " in PSE AEF record")])
    else let* (apps, n) := aef_loop_n (Datatypes.S (length (b_val t))) (ber_itr_init (b_val t)) pse supported apps n in Ret (0, apps, n)
  end.
(** emv_tal.c:155-205: the loop over directory records. *)
Fixpoint pse_loop_n (fuel : nat) (s : T) (sfi rec : Z) (pse supported : list field) (apps : list emvapp) (n : list note)
  : out (Z * list emvapp * T * list note) :=
  match fuel with
  | O => NoFuel
  | Datatypes.S fuel =>
    let* a := x_read x s sfi rec in
    if negb (n_ret a =? 0) then Ret (TAL_TTL_FAILURE, apps, n_st a, n ++ [Err (lit "TTL failure")])
    else if n_sw a =? 0x6A83 then Ret (0, apps, n_st a, n ++ [Info (lit "No more PSE records")])
    else if negb (n_sw a =? 0x9000) then
      pse_loop_n fuel (n_st a) sfi (u8 (rec + 1)) pse supported apps (n ++ [Err (lit "Unexpected PSE record error")])
    else
      let* (r, apps, n) := parse_aef_n (junk_tag rec) pse (n_data a) supported apps (n ++ [Data (lit "AEF") (n_data a)]) in
      if r <? 0 then Ret (r, apps, n_st a, n ++ [Err (lit "Unknown PSE AEF record error")])
      else pse_loop_n fuel (n_st a) sfi (u8 (rec + 1)) pse supported apps (if 0 <? r then n ++ [Err (lit "Invalid PSE AEF record")] else n)
  end.
(** emv_tal.c:51-216, emv_tal_read_pse. *)
Definition read_pse_n (fuel : nat) (s : T) (supported : list field) (apps : list emvapp)
  : out (Z * list emvapp * T * list note) :=
  let n := [Info (lit "SELECT " ++ EMV_PSE)] in
  let* a := x_select x s EMV_PSE in
  let s := n_st a in
  if negb (n_ret a =? 0) then Ret (TAL_TTL_FAILURE, apps, s, n ++ [Err (lit "TTL failure")])
  else if n_sw a =? 0x6A81 then Ret (TAL_CARD_BLOCKED, apps, s, n ++ [Err (lit "Card blocked or SELECT not supported")])
  else if n_sw a =? 0x6A82 then Ret (TAL_PSE_NOT_FOUND, apps, s, n ++ [Info (lit "PSE not found")])
  else if n_sw a =? 0x6283 then Ret (TAL_PSE_BLOCKED, apps, s, n ++ [Err (lit "PSE is blocked")])
  else if negb (n_sw a =? 0x9000) then Ret (TAL_PSE_SELECT_FAILED, apps, s, n ++ [Err (lit "Failed to SELECT PSE")])
  else
  let n := n ++ [Data (lit "FCI") (n_data a)] in
  let* (r, pse) := tlv_parse (n_data a) [] in
  let* (r, apps, s, n) :=
    if r <? 0 then Ret (TAL_PSE_FCI_PARSE_FAILED, apps, s, n ++ [Err (lit "Failed to parse FCI")])
    else match find_tag 0x88 pse with
    | None => Ret (TAL_PSE_SFI_NOT_FOUND, apps, s, n ++ [Err (lit "Failed to find SFI for PSE records")])
    | Some f =>
      if negb (f_len f =? 1) then Ret (TAL_PSE_SFI_INVALID, apps, s, n ++ [Err (lit "Invalid SFI length or value for PSE records")])
      else let* sfi := rd (f_val f) 0 in pse_loop_n fuel s sfi 1 pse supported apps n
    end in
  Ret (r, if r =? 0 then apps else [], s, n).
End Dir.
