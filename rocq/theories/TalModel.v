(** Model of src/emv_tal.c, for an arbitrary transport (the functions of src/emv_ttl.c
    that it calls); see [ttl_transport] below for the one of the library.  Debug
    output is not modelled.  TLV lists and application lists are sequences. *)
From Verif Require Import Base BerModel TlvListModel TlvModel DolModel TtlModel FieldsModel AppModel.

(** What a transport function delivers: return code, the octets delivered (if the
    code is 0), sw1sw2, and the state of the card and reader. *)
Record answer (T : Type) := mkAns { n_ret : Z; n_data : list Z; n_sw : Z; n_st : T }.
Arguments mkAns {T}. Arguments n_ret {T}. Arguments n_data {T}. Arguments n_sw {T}. Arguments n_st {T}.
Record transport (T : Type) := mkTr {
  x_select : T -> list Z -> out (answer T);
  x_next : T -> list Z -> out (answer T);
  x_read : T -> Z -> Z -> out (answer T);
  x_gpo : T -> option (list Z) -> out (answer T) }.
Arguments mkTr {T}. Arguments x_select {T}. Arguments x_next {T}. Arguments x_read {T}. Arguments x_gpo {T}.

(** The library's transport: src/emv_ttl.c with output buffers of
    EMV_RAPDU_DATA_MAX octets.  [*sw1sw2] is a local variable of the caller; its
    value is only used after the function returned 0. *)
Definition of_tres {S} (m : out (tres S)) : out (answer S) :=
  let* t := m in
  let* d := sub (o_buf t) 0 (if o_ret t =? 0 then Z.to_nat (o_len t) else 0) in
  Ret (mkAns (o_ret t) d (o_sw t) (o_card t)).
Definition ttl_transport {S} (fuel : nat) (card : cardfn S) (md : mode) (junk : list Z) : transport S :=
  let outb := repeat 0 (Z.to_nat RAPDU_DATA_MAX) in
  mkTr (fun s name => of_tres (ttl_select fuel card md junk s name outb 0))
       (fun s name => of_tres (ttl_select_next fuel card md junk s name outb 0))
       (fun s sfi rec => of_tres (ttl_read_record fuel card md s sfi rec outb 0))
       (fun s data => of_tres (ttl_gpo fuel card md junk s data outb 0)).

(** enum emv_tal_error_t, enum emv_tal_result_t (src/emv_tal.h:38-72). *)
Definition TAL_INTERNAL := -1. Definition TAL_INVALID_PARAMETER := -2. Definition TAL_TTL_FAILURE := -3.
Definition TAL_CARD_BLOCKED := -4. Definition TAL_GPO_FAILED := -5. Definition TAL_GPO_PARSE_FAILED := -6.
Definition TAL_GPO_FIELD_NOT_FOUND := -7. Definition TAL_AFL_INVALID := -8. Definition TAL_READ_RECORD_FAILED := -9.
Definition TAL_READ_RECORD_INVALID := -10. Definition TAL_READ_RECORD_PARSE_FAILED := -11.
Definition TAL_PSE_NOT_FOUND := 1. Definition TAL_PSE_BLOCKED := 2. Definition TAL_PSE_SELECT_FAILED := 3.
Definition TAL_PSE_FCI_PARSE_FAILED := 4. Definition TAL_PSE_SFI_NOT_FOUND := 5. Definition TAL_PSE_SFI_INVALID := 6.
Definition TAL_PSE_AEF_PARSE_FAILED := 7. Definition TAL_PSE_AEF_INVALID := 8. Definition TAL_APP_NOT_FOUND := 9.
Definition TAL_APP_BLOCKED := 10. Definition TAL_APP_SELECTION_FAILED := 11. Definition TAL_APP_FCI_PARSE_FAILED := 12.
Definition TAL_GPO_CONDITIONS_NOT_SATISFIED := 13. Definition TAL_ODA_RECORD_INVALID := 14.

(** src/emv_tal.h:29, "1PAY.SYS.DDF01". *)
Definition EMV_PSE : list Z := [0x31;0x50;0x41;0x59;0x2E;0x53;0x59;0x53;0x2E;0x44;0x44;0x46;0x30;0x31].

Section Tal.
Context {T : Type} (x : transport T).
(** Uninitialised local buffer of emv_app_extract_display_name, see [AppModel]. *)
Context (junk : list Z).

(** emv_tal.c:259-292: the loop over the objects of the template. *)
Fixpoint aef_loop (fuel : nat) (itr : list Z) (pse supported : list field) (apps : list emvapp)
  : out (list emvapp) :=
  match fuel with
  | O => NoFuel
  | S fuel =>
    let* (r, t, itr) := ber_itr_next itr in
    if r <=? 0 then Ret apps
    else match t with
    | None => UB
    | Some t =>
      if negb (b_tag t =? 0x61) then aef_loop fuel itr pse supported apps
      else
      let* a := app_create_from_pse junk pse (b_val t) in
      match a with
      | None => aef_loop fuel itr pse supported apps
      | Some a =>
        let* ok := app_is_supported (a_aid a) supported in
        aef_loop fuel itr pse supported (if ok then apps ++ [a] else apps)
      end
    end
  end.
(** emv_tal.c:218-295, emv_tal_parse_aef_record. *)
Definition parse_aef_record (pse : list field) (rec : list Z) (supported : list field) (apps : list emvapp)
  : out (Z * list emvapp) :=
  let* (r, t) := ber_decode rec in
  if r <=? 0 then Ret (TAL_PSE_AEF_PARSE_FAILED, apps)
  else match t with
  | None => UB
  | Some t =>
    if negb (b_tag t =? 0x70) then Ret (TAL_PSE_AEF_INVALID, apps)
    else let* apps := aef_loop (S (length (b_val t))) (ber_itr_init (b_val t)) pse supported apps in Ret (0, apps)
  end.

(** emv_tal.c:155-205: the loop over directory records; [rec] is a uint8_t.  (Exit
    code, application list, state.) *)
Fixpoint pse_loop (fuel : nat) (s : T) (sfi rec : Z) (pse supported : list field) (apps : list emvapp)
  : out (Z * list emvapp * T) :=
  match fuel with
  | O => NoFuel
  | S fuel =>
    let* a := x_read x s sfi rec in
    if negb (n_ret a =? 0) then Ret (TAL_TTL_FAILURE, apps, n_st a)
    else if n_sw a =? 0x6A83 then Ret (0, apps, n_st a)
    else if negb (n_sw a =? 0x9000) then pse_loop fuel (n_st a) sfi (u8 (rec + 1)) pse supported apps
    else
      let* (r, apps) := parse_aef_record pse (n_data a) supported apps in
      if r <? 0 then Ret (r, apps, n_st a)
      else pse_loop fuel (n_st a) sfi (u8 (rec + 1)) pse supported apps
  end.
(** emv_tal.c:51-216, emv_tal_read_pse.  The application list is cleared at label
    [exit] only, not by the early returns. *)
Definition read_pse (fuel : nat) (s : T) (supported : list field) (apps : list emvapp)
  : out (Z * list emvapp * T) :=
  let* a := x_select x s EMV_PSE in
  let s := n_st a in
  if negb (n_ret a =? 0) then Ret (TAL_TTL_FAILURE, apps, s)
  else if n_sw a =? 0x6A81 then Ret (TAL_CARD_BLOCKED, apps, s)
  else if n_sw a =? 0x6A82 then Ret (TAL_PSE_NOT_FOUND, apps, s)
  else if n_sw a =? 0x6283 then Ret (TAL_PSE_BLOCKED, apps, s)
  else if negb (n_sw a =? 0x9000) then Ret (TAL_PSE_SELECT_FAILED, apps, s)
  else
  let* (r, pse) := tlv_parse (n_data a) [] in
  let* (r, apps, s) :=
    if r <? 0 then Ret (TAL_PSE_FCI_PARSE_FAILED, apps, s)
    else match find_tag 0x88 pse with
    | None => Ret (TAL_PSE_SFI_NOT_FOUND, apps, s)
    | Some f =>
      if negb (f_len f =? 1) then Ret (TAL_PSE_SFI_INVALID, apps, s)
      else let* sfi := rd (f_val f) 0 in pse_loop fuel s sfi 1 pse supported apps
    end in
  Ret (r, if r =? 0 then apps else [], s).

(** emv_tal.c:317-449: the loop over the supported AIDs; [aids] starts at [aid],
    [exact] is [exact_match].  One iteration is one SELECT. *)
Fixpoint find_loop (fuel : nat) (s : T) (aids : list field) (exact : bool) (apps : list emvapp)
  : out (Z * list emvapp * T) :=
  match fuel with
  | O => NoFuel
  | S fuel =>
    match aids with
    | [] => Ret (0, apps, s)
    | aid :: rest =>
      let* name := sub (f_val aid) 0 (Z.to_nat (f_len aid)) in
      let* a := if exact then x_select x s name else x_next x s name in
      let s := n_st a in
      if negb (n_ret a =? 0) then Ret (TAL_TTL_FAILURE, apps, s)
      else if (exact && (n_sw a =? 0x6A81))%bool then Ret (TAL_CARD_BLOCKED, apps, s)
      else if (negb (n_sw a =? 0x9000) && negb (n_sw a =? 0x6283))%bool then find_loop fuel s rest true apps
      else
        let* r := app_create_from_fci junk (n_data a) in
        match r with
        | None => find_loop fuel s rest true apps
        | Some app_ =>
          let apps' := if n_sw a =? 0x9000 then apps ++ [app_] else apps in
          if f_len aid =? f_len (a_aid app_) then find_loop fuel s rest true apps'
          else if f_flags aid =? 1 then find_loop fuel s aids false apps'
          else find_loop fuel s rest true apps
        end
    end
  end.
(** emv_tal.c:297-452, emv_tal_find_supported_apps. *)
Definition find_supported_apps (fuel : nat) (s : T) (supported : list field) (apps : list emvapp)
  : out (Z * list emvapp * T) := find_loop fuel s supported true apps.

(** emv_tal.c:454-540, emv_tal_select_app: return code and the selected application
    (None = NULL; for invalid parameters the output is not written). *)
Definition select_app (s : T) (aid : list Z) : out (Z * option emvapp * T) :=
  if ((Zlen aid <? 5) || (16 <? Zlen aid))%bool then Ret (TAL_INVALID_PARAMETER, None, s)
  else
  let* a := x_select x s aid in
  let s := n_st a in
  if negb (n_ret a =? 0) then Ret (TAL_TTL_FAILURE, None, s)
  else if negb (n_sw a =? 0x9000) then
    (if n_sw a =? 0x6A81 then Ret (TAL_CARD_BLOCKED, None, s)
     else if n_sw a =? 0x6A82 then Ret (TAL_APP_NOT_FOUND, None, s)
     else if n_sw a =? 0x6283 then Ret (TAL_APP_BLOCKED, None, s)
     else Ret (TAL_APP_SELECTION_FAILED, None, s))
  else
  let* r := app_create_from_fci junk (n_data a) in
  match r with
  | None => Ret (TAL_APP_FCI_PARSE_FAILED, None, s)
  | Some app_ =>
    if negb (f_len (a_aid app_) =? Zlen aid) then Ret (TAL_APP_SELECTION_FAILED, None, s)
    else
    let* same := mem_equal (f_val (a_aid app_)) aid (length aid) in
    if negb same then Ret (TAL_APP_SELECTION_FAILED, None, s)
    else Ret (0, Some app_, s)
  end.

(** The output pointers of the following function: NULL, a node that is alive, or
    one that has been released. *)
Inductive gptr := GNull | GLive (f : field) | GFreed.
(** emv_tal.c:542-741, emv_tal_get_processing_options ([None] is a NULL [data]):
    return code, [list], [*aip], [*afl].  [list] and [gpo_list] are valid lists, so
    pushing and appending succeed. *)
Definition get_processing_options (s : T) (data : option (list Z)) (list_ : list field)
  : out (Z * list field * gptr * gptr * T) :=
  if match data with Some d => ((Zlen d <? 2) || (255 <? Zlen d))%bool | None => false end
  then Ret (TAL_INVALID_PARAMETER, list_, GNull, GNull, s)
  else
  let* a := x_gpo x s data in
  let s := n_st a in
  if negb (n_ret a =? 0) then Ret (TAL_TTL_FAILURE, list_, GNull, GNull, s)
  else if negb (n_sw a =? 0x9000) then
    Ret (if n_sw a =? 0x6985 then TAL_GPO_CONDITIONS_NOT_SATISFIED else TAL_GPO_FAILED, list_, GNull, GNull, s)
  else
  let* (r, t) := ber_decode (n_data a) in
  if r <=? 0 then Ret (TAL_GPO_PARSE_FAILED, list_, GNull, GNull, s)
  else match t with
  | None => UB
  | Some t =>
    let* g :=                                                                 (* 624-694 *)
      if b_tag t =? 0x80 then
        if ((b_len t <? 6) || negb (Z.land (u32 (b_len t - 2)) 3 =? 0))%bool then Ret (inr TAL_GPO_PARSE_FAILED)
        else
        let* v1 := sub (b_val t) 0 2 in
        let* v2 := sub (b_val t) 2 (Z.to_nat (b_len t - 2)) in
        Ret (inl [mkField 0x82 2 v1 0; mkField 0x94 (b_len t - 2) v2 0])
      else if b_tag t =? 0x77 then
        let* (r, l) := tlv_parse (b_val t) [] in
        if r <? 0 then Ret (inr TAL_INTERNAL) else if 0 <? r then Ret (inr TAL_GPO_PARSE_FAILED) else Ret (inl l)
      else Ret (inl []) in
    match g with
    | inr e => Ret (e, list_, GNull, GNull, s)
    | inl g =>
      match find_tag 0x82 g with                                              (* 697-708 *)
      | None => Ret (TAL_GPO_FIELD_NOT_FOUND, list_, GNull, GNull, s)
      | Some aip =>
        match find_tag 0x94 g with                                            (* 711-722 *)
        | None => Ret (TAL_GPO_FIELD_NOT_FOUND, list_, GFreed, GNull, s)
        | Some afl => Ret (0, list_ ++ g, GLive aip, GLive afl, s)
        end
      end
    end
  end.

(** emv_tal.c:795-869: a record that was read: return code (0: go on), whether it
    invalidates offline data authentication, and the list.  [record] is
    uninitialised behind the octets delivered. *)
Definition sfi_record (sfi : Z) (rec : list Z) (l : list field) : out (Z * bool * list field) :=
  let* b0 := rd rec 0 in
  let low := ((1 <=? sfi) && (sfi <=? 10))%bool in
  if negb (b0 =? 0x70) then Ret (if low then (TAL_READ_RECORD_INVALID, false, l) else (0, true, l))
  else
  let* bad :=
    if low then
      let* (r, t) := ber_decode rec in
      if r <=? 0 then Ret true
      else match t with
      | None => UB
      | Some t => Ret (negb (b_tag t =? 0x70) || (u32 (b_len t + 3) <? Zlen rec))%bool
      end
    else Ret false in
  if bad then Ret (TAL_READ_RECORD_INVALID, false, l)
  else
  let* (r, l) := tlv_parse rec l in
  Ret (if r <? 0 then TAL_INTERNAL else if 0 <? r then TAL_READ_RECORD_PARSE_FAILED else 0, false, l).

(** emv_tal.c:758-869: the loop over the records of an AFL entry; [rec] is a
    uint8_t. *)
Fixpoint sfi_loop (fuel : nat) (s : T) (e : afl_entry) (rec : Z) (oda_invalid : bool) (l : list field)
  : out (Z * list field * T) :=
  match fuel with
  | O => NoFuel
  | S fuel =>
    if a_last e <? rec then Ret (if oda_invalid then TAL_ODA_RECORD_INVALID else 0, l, s)
    else
    let* a := x_read x s (a_sfi e) rec in
    if negb (n_ret a =? 0) then Ret (TAL_TTL_FAILURE, l, n_st a)
    else if negb (n_sw a =? 0x9000) then Ret (TAL_READ_RECORD_FAILED, l, n_st a)
    else
    let* (r, inv, l) := sfi_record (a_sfi e) (n_data a) l in
    if negb (r =? 0) then Ret (r, l, n_st a)
    else sfi_loop fuel (n_st a) e (u8 (rec + 1)) (oda_invalid || inv)%bool l
  end.
(** emv_tal.c:743-879, emv_tal_read_sfi_records. *)
Definition read_sfi_records (fuel : nat) (s : T) (e : afl_entry) (l : list field) : out (Z * list field * T) :=
  sfi_loop fuel s e (a_first e) false l.

(** emv_tal.c:916-943: the loop over the AFL entries. *)
Fixpoint afl_loop (fuel : nat) (rfuel : nat) (s : T) (itr : list Z) (oda_invalid : bool) (l : list field)
  : out (Z * list field * T) :=
  match fuel with
  | O => NoFuel
  | S fuel =>
    let* (r, e, itr) := afl_itr_next itr in
    if 0 <? r then
      match e with
      | None => UB
      | Some e =>
        let* (r, l, s) := read_sfi_records rfuel s e l in
        if r =? 0 then afl_loop fuel rfuel s itr oda_invalid l
        else if r =? TAL_ODA_RECORD_INVALID then afl_loop fuel rfuel s itr true l
        else Ret (r, l, s)
      end
    else if r <? 0 then Ret (TAL_AFL_INVALID, l, s)
    else Ret (if oda_invalid then TAL_ODA_RECORD_INVALID else 0, l, s)
  end.
(** emv_tal.c:881-944, emv_tal_read_afl_records; [rfuel] bounds the records of an
    entry. *)
Definition read_afl_records (rfuel : nat) (s : T) (afl : list Z) (l : list field) : out (Z * list field * T) :=
  if (length afl =? 0)%nat then Ret (TAL_INVALID_PARAMETER, l, s)
  else match afl_itr_init afl with
  | (r, Some itr) => afl_loop (S (length afl)) rfuel s itr false l
  | (r, None) => Ret (if r <? 0 then TAL_INTERNAL else TAL_AFL_INVALID, l, s)
  end.
End Tal.
