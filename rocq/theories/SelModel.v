(** Model of what emv_tal_find_supported_apps, emv_tal_select_app and emv_tal_get_processing_options (src/emv_tal.c)
    tell through emv_debug_error, emv_debug_info, emv_debug_info_tlv and emv_debug_info_data.  The results are those of
    TalModel.v; messages as in DirModel.v. *)
From Coq Require Import String.
From Verif Require Import Base BerModel TlvListModel TlvModel DolModel TtlModel FieldsModel AppModel TalModel StrModel CapduModel FlagsModel PrintModel DirModel.
Open Scope string_scope.
Open Scope Z_scope.
Open Scope list_scope.
Notation length := List.length.

(** "%04X" and "%04hX" of a uint16_t. *)
Definition p_04X (v : Z) : list Z := p_02X (v / 256) ++ p_02X (v mod 256).

Section Sel.
Context {T : Type} (x : transport T) (junk : list Z).

(** emv_tal.c:317-449: the loop over the supported AIDs. *)
Fixpoint find_loop_n (fuel : nat) (s : T) (aids : list field) (exact : bool) (apps : list emvapp) (n : list note)
  : out (Z * list emvapp * T * list note) :=
  match fuel with
  | O => NoFuel
  | Datatypes.S fuel =>
    match aids with
    | [] => Ret (0, apps, s, n)
    | aid :: rest =>
      let* name := sub (f_val aid) 0 (Z.to_nat (f_len aid)) in
      let n := n ++ [Data (if exact then lit "SELECT application" else lit "SELECT next application") name] in
      let* a := if exact then x_select x s name else x_next x s name in
      let s := n_st a in
      if negb (n_ret a =? 0) then Ret (TAL_TTL_FAILURE, apps, s, n ++ [Err (lit "TTL failure")])
      else if (exact && (n_sw a =? 0x6A81))%bool then Ret (TAL_CARD_BLOCKED, apps, s, n ++ [Err (lit "Card blocked or SELECT not supported")])
      else if (negb (n_sw a =? 0x9000) && negb (n_sw a =? 0x6283))%bool then
        find_loop_n fuel s rest true apps
          (n ++ [if n_sw a =? 0x6A82 then Info (lit "Application not found") else Err (lit "Unexpected SELECT status 0x" ++ p_04X (n_sw a))])
      else
        let n := n ++ [Data (lit "FCI") (n_data a)] in
        let* r := app_create_from_fci junk (n_data a) in
        match r with
        | None => find_loop_n fuel s rest true apps n
        | Some app_ =>
          if f_len aid =? f_len (a_aid app_) then
            if n_sw a =? 0x9000 then find_loop_n fuel s rest true (apps ++ [app_]) (n ++ [Info (lit "Application is supported: exact match")])
            else find_loop_n fuel s rest true apps (n ++ [Info (lit "Application is blocked")])
          else if f_flags aid =? 1 then
            if n_sw a =? 0x9000 then find_loop_n fuel s aids false (apps ++ [app_]) (n ++ [Info (lit "Application is supported: partial match")])
            else find_loop_n fuel s aids false apps (n ++ [Info (lit "Application is blocked")])
          else find_loop_n fuel s rest true apps (n ++ [Info (lit "Application is not supported: partial match not allowed")])
        end
    end
  end.
(** emv_tal.c:297-452, emv_tal_find_supported_apps. *)
Definition find_supported_n (fuel : nat) (s : T) (supported : list field) (apps : list emvapp) := find_loop_n fuel s supported true apps [].

(** emv_tal.c:454-540, emv_tal_select_app. *)
Definition select_app_n (s : T) (aid : list Z) : out (Z * option emvapp * T * list note) :=
  if ((Zlen aid <? 5) || (16 <? Zlen aid))%bool then Ret (TAL_INVALID_PARAMETER, None, s, [])
  else
  let n := [Data (lit "SELECT application") aid] in
  let* a := x_select x s aid in
  let s := n_st a in
  if negb (n_ret a =? 0) then Ret (TAL_TTL_FAILURE, None, s, n ++ [Err (lit "TTL failure")])
  else if negb (n_sw a =? 0x9000) then
    (if n_sw a =? 0x6A81 then Ret (TAL_CARD_BLOCKED, None, s, n ++ [Err (lit "Card blocked or SELECT not supported")])
     else if n_sw a =? 0x6A82 then Ret (TAL_APP_NOT_FOUND, None, s, n ++ [Info (lit "Application not found")])
     else if n_sw a =? 0x6283 then Ret (TAL_APP_BLOCKED, None, s, n ++ [Info (lit "Application is blocked")])
     else Ret (TAL_APP_SELECTION_FAILED, None, s, n ++ [Err (lit "SW1SW2=0x" ++ p_04X (n_sw a) ++ newline)]))
  else
  let n := n ++ [Data (lit "FCI") (n_data a)] in
  let* r := app_create_from_fci junk (n_data a) in
  match r with
  | None => Ret (TAL_APP_FCI_PARSE_FAILED, None, s, n ++ [Err (lit "Failed to parse application FCI")])
  | Some app_ =>
    if negb (f_len (a_aid app_) =? Zlen aid) then Ret (TAL_APP_SELECTION_FAILED, None, s, n ++ [Err (lit "DF Name mismatch")])
    else
    let* same := mem_equal (f_val (a_aid app_)) aid (length aid) in
    if negb same then Ret (TAL_APP_SELECTION_FAILED, None, s, n ++ [Err (lit "DF Name mismatch")])
    else Ret (0, Some app_, s, n)
  end.

(** emv_tal.c:542-741, emv_tal_get_processing_options. *)
Definition gpo_n (s : T) (data : option (list Z)) (list_ : list field)
  : out (Z * list field * gptr * gptr * T * list note) :=
  if match data with Some d => ((Zlen d <? 2) || (255 <? Zlen d))%bool | None => false end
  then Ret (TAL_INVALID_PARAMETER, list_, GNull, GNull, s, [])
  else
  let n := [Data (lit "GET PROCESSING OPTIONS") (match data with Some d => d | None => [] end)] in
  let* a := x_gpo x s data in
  let s := n_st a in
  if negb (n_ret a =? 0) then Ret (TAL_TTL_FAILURE, list_, GNull, GNull, s, n ++ [Err (lit "TTL failure")])
  else if negb (n_sw a =? 0x9000) then
    Ret (if n_sw a =? 0x6985 then (TAL_GPO_CONDITIONS_NOT_SATISFIED, list_, GNull, GNull, s, n ++ [Info (lit "Conditions of use not satisfied")])
         else (TAL_GPO_FAILED, list_, GNull, GNull, s, n ++ [Err (lit "SW1SW2=0x" ++ p_04X (n_sw a))]))
  else
  let n := n ++ [Data (lit "GPO response") (n_data a)] in
  let* (r, t) := ber_decode (n_data a) in
  if r <=? 0 then Ret (TAL_GPO_PARSE_FAILED, list_, GNull, GNull, s, n ++ [Err (lit "Failed to parse GPO response")])
  else match t with
  | None => UB
  | Some t =>
    let* (g, n) :=
      if b_tag t =? 0x80 then
        if ((b_len t <? 6) || negb (Z.land (u32 (b_len t - 2)) 3 =? 0))%bool
        then Ret (inr TAL_GPO_PARSE_FAILED, n ++ [Err (lit "Invalid GPO response format 1 length of " ++ p_dec (b_len t))])
        else
        let* v1 := sub (b_val t) 0 2 in
        let* v2 := sub (b_val t) 2 (Z.to_nat (b_len t - 2)) in
        Ret (inl [mkField 0x82 2 v1 0; mkField 0x94 (b_len t - 2) v2 0], n ++ [Data (lit "AIP") v1; Data (lit "AFL") v2])
      else if b_tag t =? 0x77 then
        let* (r, l) := tlv_parse (b_val t) [] in
        Ret (if r <? 0 then (inr TAL_INTERNAL, n ++ [Err (lit "Internal error")])
             else if 0 <? r then (inr TAL_GPO_PARSE_FAILED, n ++ [Err (lit "Failed to parse GPO response format 2")]) else (inl l, n))
      else Ret (inl [], n) in
    match g with
    | inr e => Ret (e, list_, GNull, GNull, s, n)
    | inl g =>
      match find_tag 0x82 g with
      | None => Ret (TAL_GPO_FIELD_NOT_FOUND, list_, GNull, GNull, s, n ++ [Err (lit "AIP not found in GPO response")])
      | Some aip =>
        match find_tag 0x94 g with
        | None => Ret (TAL_GPO_FIELD_NOT_FOUND, list_, GFreed, GNull, s, n ++ [Err (lit "AFL not found in GPO response")])
        | Some afl => Ret (0, list_ ++ g, GLive aip, GLive afl, s, n)
        end
      end
    end
  end.
End Sel.
