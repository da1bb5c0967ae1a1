(** Model of src/pcsc.c: the reader list, the reader features and properties,
    card detection, connecting and transmitting.

    The PC/SC service (winscard) is not part of the code: it is a record of
    functions over a state of its own, [svc], and the theorems hold for every
    such service.  A service that hands back more octets than the buffer it
    was given holds is outside the model ([put] is then [UB]).  Messages to
    stderr, malloc and the NULL checks of the context arguments are left out.
    DWORD and size_t are 64 bit as with PCSCLite on 64 bit Linux. *)
From Verif Require Import Base.

(** winscard.h / pcsc_compat.h constants. *)
Definition SCARD_S_SUCCESS : Z := 0.
Definition SCARD_E_TIMEOUT : Z := 0x8010000A.
Definition SCARD_SHARE_EXCLUSIVE : Z := 1.
Definition SCARD_SHARE_DIRECT : Z := 3.
Definition SCARD_PROTOCOL_T0 : Z := 1.
Definition SCARD_PROTOCOL_T1 : Z := 2.
Definition SCARD_LEAVE_CARD : Z := 0.
Definition SCARD_UNPOWER_CARD : Z := 2.
Definition SCARD_STATE_IGNORE : Z := 0x0001.
Definition SCARD_STATE_EMPTY : Z := 0x0010.
Definition SCARD_STATE_PRESENT : Z := 0x0020.
Definition CM_IOCTL_GET_FEATURE_REQUEST : Z := 0x42000D48.

(** pcsc_compat.h lines 43-46, pcsc.h lines 46-58, 80-84. *)
Definition FEATURE_IFD_PIN_PROPERTIES : Z := 0x0A.
Definition FEATURE_IFD_DISPLAY_PROPERTIES : Z := 0x11.
Definition FEATURE_GET_TLV_PROPERTIES : Z := 0x12.
Definition PROPERTY_wLcdLayout : Z := 0x01.
Definition PROPERTY_wLcdMaxCharacters : Z := 0x04.
Definition PROPERTY_wLcdMaxLines : Z := 0x05.
Definition PCSC_READER_ANY : Z := 0xFFFFFFFF.
Definition TYPE_UNKNOWN : Z := 0.
Definition TYPE_CONTACT : Z := 1.
Definition TYPE_CONTACTLESS : Z := 2.

(** The service: SCardConnect (result, handle, protocol), SCardControl
    (result, octets written), SCardDisconnect (the handle is [None] when the
    variable passed was never initialised), SCardStatus (result, protocol,
    ATR) and SCardTransmit (result, response). *)
Record svc (St : Type) := mksvc {
  sv_connect : St -> Z -> (Z * Z * Z) * St;
  sv_control : St -> Z -> Z -> nat -> (Z * list Z) * St;
  sv_disconnect : St -> option Z -> Z -> Z * St;
  sv_status : St -> Z -> nat -> (Z * Z * list Z) * St;
  sv_transmit : St -> Z -> Z -> list Z -> nat -> (Z * list Z) * St
}.
Arguments sv_connect {St}. Arguments sv_control {St}.
Arguments sv_disconnect {St}. Arguments sv_status {St}.
Arguments sv_transmit {St}. Arguments mksvc {St}.

(** struct pcsc_reader_features_t, pcsc.c lines 54-70. *)
Record features := mkfeat {
  f_buf : list Z; f_buf_len : Z;
  f_pin : list Z; f_pin_len : Z;
  f_disp : list Z; f_disp_len : Z;
  f_props : list Z; f_props_len : Z
}.
(** As pcsc_init clears it, pcsc.c lines 146-147; the array sizes are those of
    PCSC_MAX_BUFFER_SIZE and of the packed structures in pcsc_compat.h. *)
Definition feat0 : features :=
  mkfeat (repeat 0 264) 0 (repeat 0 4) 0 (repeat 0 4) 0 (repeat 0 264) 0.

(** pcsc_reader_get_feature, pcsc.c lines 338-364: 6 octet entries (tag,
    length, 4 octets of value in network order).  [Some code] is a return of
    0, [None] a return of 1. *)
Fixpoint feature_loop (fuel : nat) (buf : list Z) (len : Z) (off : nat)
    (feature : Z) : out (option Z) :=
  match fuel with
  | O => NoFuel
  | S k =>
    if Z.of_nat off <? len then
      let* tag := rd buf off in
      if tag =? feature then
        let* length := rd buf (off + 1) in
        if length =? 4 then
          let* v := sub buf (off + 2) 4 in
          Ret (Some (fold_left (fun a b => a * 256 + b) v 0))
        else feature_loop k buf len (off + 6) feature
      else feature_loop k buf len (off + 6) feature
    else Ret None
  end.
Definition get_feature (f : features) (feature : Z) : out (option Z) :=
  if f_buf_len f =? 0 then Ret None
  else feature_loop (S (length (f_buf f))) (f_buf f) (f_buf_len f) 0 feature.

(** pcsc_reader_has_feature, pcsc.c lines 442-465. *)
Fixpoint has_loop (fuel : nat) (buf : list Z) (len : Z) (off : nat)
    (feature : Z) : out bool :=
  match fuel with
  | O => NoFuel
  | S k =>
    if Z.of_nat off <? len then
      let* tag := rd buf off in
      if tag =? feature then Ret true
      else has_loop k buf len (off + 6) feature
    else Ret false
  end.
Definition has_feature (f : features) (feature : Z) : out bool :=
  if f_buf_len f =? 0 then Ret false
  else has_loop (S (length (f_buf f))) (f_buf f) (f_buf_len f) 0 feature.

(** pcsc.c lines 223-234: every feature entry must have length 4. *)
Fixpoint lengths_loop (fuel : nat) (buf : list Z) (len : Z) (off : nat) : out bool :=
  match fuel with
  | O => NoFuel
  | S k =>
    if Z.of_nat off <? len then
      let* length := rd buf (off + 1) in
      if negb (length =? 4) then Ret false
      else lengths_loop k buf len (off + 6)
    else Ret true
  end.

(** Ending of pcsc_reader_populate_features, pcsc.c lines 327-336: disconnect,
    ignoring the result. *)
Definition pop_exit {St} (sv : svc St) (h : option Z) (r : Z) (f : features)
    (s : St) : out (Z * features * St) :=
  let '(_, s) := sv_disconnect sv s h SCARD_LEAVE_CARD in
  Ret (r, f, s).

(** pcsc.c lines 206-234: the feature list.  In this and the next three
    functions [Some r] is a [goto exit] with [r]. *)
Definition pop_list {St} (sv : svc St) (h : Z) (f : features) (s : St)
    : out (option Z * features * St) :=
  let '((res, d), s) :=
    sv_control sv s h CM_IOCTL_GET_FEATURE_REQUEST (length (f_buf f)) in
  let* buf := put (f_buf f) 0 d in
  let g := fun n => mkfeat buf n (f_pin f) (f_pin_len f) (f_disp f)
             (f_disp_len f) (f_props f) (f_props_len f) in
  if negb (res =? SCARD_S_SUCCESS) then Ret (Some (-3), g (Zlen d), s)
  else if negb (Zlen d mod 6 =? 0) then Ret (Some (-4), g 0, s)
  else
  let* ok := lengths_loop (S (length buf)) buf (Zlen d) 0 in
  if negb ok then Ret (Some (-5), g (Zlen d), s)
  else Ret (None, g (Zlen d), s).

(** pcsc.c lines 236-269: the PIN properties. *)
Definition pop_pin {St} (sv : svc St) (h : Z) (f : features) (s : St)
    : out (option Z * features * St) :=
  let* c := get_feature f FEATURE_IFD_PIN_PROPERTIES in
  match c with
  | None => Ret (None, f, s)
  | Some code =>
    let '((res, d), s) := sv_control sv s h code (length (f_pin f)) in
    let* pin := put (f_pin f) 0 d in
    let g := fun n => mkfeat (f_buf f) (f_buf_len f) pin n (f_disp f)
               (f_disp_len f) (f_props f) (f_props_len f) in
    if negb (res =? SCARD_S_SUCCESS) then Ret (Some (-7), g (Zlen d), s)
    else if negb (Zlen d =? Zlen pin) then Ret (Some (-8), g 0, s)
    else Ret (None, g (Zlen d), s)
  end.

(** pcsc.c lines 271-298: the display properties. *)
Definition pop_disp {St} (sv : svc St) (h : Z) (f : features) (s : St)
    : out (option Z * features * St) :=
  let* c := get_feature f FEATURE_IFD_DISPLAY_PROPERTIES in
  match c with
  | None => Ret (None, f, s)
  | Some code =>
    let '((res, d), s) := sv_control sv s h code (length (f_disp f)) in
    let* disp := put (f_disp f) 0 d in
    let g := fun n => mkfeat (f_buf f) (f_buf_len f) (f_pin f)
               (f_pin_len f) disp n (f_props f) (f_props_len f) in
    if negb (res =? SCARD_S_SUCCESS) then Ret (Some (-10), g (Zlen d), s)
    else if negb (Zlen d =? Zlen disp) then Ret (Some (-11), g 0, s)
    else Ret (None, g (Zlen d), s)
  end.

(** pcsc.c lines 300-321: the TLV properties. *)
Definition pop_props {St} (sv : svc St) (h : Z) (f : features) (s : St)
    : out (option Z * features * St) :=
  let* c := get_feature f FEATURE_GET_TLV_PROPERTIES in
  match c with
  | None => Ret (None, f, s)
  | Some code =>
    let '((res, d), s) := sv_control sv s h code (length (f_props f)) in
    let* props := put (f_props f) 0 d in
    let g := mkfeat (f_buf f) (f_buf_len f) (f_pin f) (f_pin_len f)
               (f_disp f) (f_disp_len f) props (Zlen d) in
    if negb (res =? SCARD_S_SUCCESS) then Ret (Some (-13), g, s)
    else Ret (None, g, s)
  end.

(** pcsc_reader_populate_features, pcsc.c lines 178-336. *)
Definition populate_features {St} (sv : svc St) (f : features) (s : St)
    : out (Z * features * St) :=
  let '((res, h, _), s) := sv_connect sv s SCARD_SHARE_DIRECT in
  if negb (res =? SCARD_S_SUCCESS) then pop_exit sv None (-2) f s
  else
  let* (stop, f, s) := pop_list sv h f s in
  match stop with Some r => pop_exit sv (Some h) r f s | None =>
  let* (stop, f, s) := pop_pin sv h f s in
  match stop with Some r => pop_exit sv (Some h) r f s | None =>
  let* (stop, f, s) := pop_disp sv h f s in
  match stop with Some r => pop_exit sv (Some h) r f s | None =>
  let* (stop, f, s) := pop_props sv h f s in
  match stop with Some r => pop_exit sv (Some h) r f s | None =>
  pop_exit sv (Some h) 0 f s
  end end end end.

(** pcsc_reader_get_property, pcsc.c lines 485-508: the loop over the TLV
    properties.  [len] is the size_t tlv_len, whose subtraction wraps.
    [inl (r, value, value_len)] is a return, [inr tt] the end of the loop. *)
Fixpoint prop_loop (fuel : nat) (props : list Z) (off : nat) (len : Z)
    (property : Z) (value : list Z) (vlen : Z)
    : out ((Z * list Z * Z) + unit) :=
  match fuel with
  | O => NoFuel
  | S k =>
    if 2 <=? len then
      let* t := rd props off in
      if t =? property then
        let* n := rd props (off + 1) in
        if len - 2 <? n then Ret (inl (-2, value, 0))
        else if vlen <? n then Ret (inl (-3, value, 0))
        else
          let* v := sub props (off + 2) (Z.to_nat n) in
          let* value := put value 0 v in
          Ret (inl (0, value, n))
      else
        let* n := rd props (off + 1) in
        prop_loop k props (off + 2 + Z.to_nat n) (u64 (len - (2 + n)))
          property value vlen
    else Ret (inr tt)
  end.

(** pcsc.c lines 514-558: copy of one 16 bit field. *)
Definition get_word (field : list Z) (err : Z) (value : list Z) (vlen : Z)
    : out (Z * list Z * Z) :=
  if vlen <? Zlen field then Ret (err, value, 0)
  else let* value := put value 0 field in Ret (0, value, Zlen field).

(** pcsc_reader_get_property, pcsc.c lines 467-563.  wLcdLayout is at offset
    0 of the PIN properties; wLcdMaxCharacters and wLcdMaxLines are at offset
    0 and 2 of the display properties. *)
Definition get_property (f : features) (property : Z) (value : list Z)
    (vlen : Z) : out (Z * list Z * Z) :=
  let* l := prop_loop (S (length (f_props f))) (f_props f) 0 (f_props_len f)
              property value vlen in
  match l with
  | inl res => Ret res
  | inr _ =>
    if negb (f_pin_len f =? 0) && (property =? PROPERTY_wLcdLayout) then
      let* w := sub (f_pin f) 0 2 in get_word w (-4) value vlen
    else if negb (f_disp_len f =? 0) && (property =? PROPERTY_wLcdMaxCharacters) then
      let* w := sub (f_disp f) 0 2 in get_word w (-5) value vlen
    else if negb (f_disp_len f =? 0) && (property =? PROPERTY_wLcdMaxLines) then
      let* w := sub (f_disp f) 2 2 in get_word w (-6) value vlen
    else Ret (1, value, 0)
  end.

(** strlen of the string at [off], as an offset of its terminator. *)
Fixpoint str_end (fuel : nat) (buf : list Z) (off : nat) : out nat :=
  match fuel with
  | O => NoFuel
  | S k =>
    let* c := rd buf off in
    if c =? 0 then Ret off else str_end k buf (off + 1)
  end.

(** pcsc_init, pcsc.c lines 136-153: counting the readers and taking their
    names from the multi-string of SCardListReaders.  The result is the list
    of the offsets of the names. *)
Fixpoint reader_names (fuel : nat) (buf : list Z) (off : nat) : out (list nat) :=
  match fuel with
  | O => NoFuel
  | S k =>
    let* c := rd buf off in
    if c =? 0 then Ret []
    else
      let* e := str_end (S (length buf)) buf off in
      let* r := reader_names k buf (e + 1) in
      Ret (off :: r)
  end.
Definition init_readers (buf : list Z) : out (list nat) :=
  reader_names (S (length buf)) buf 0.
(** pcsc_get_reader and pcsc_reader_get_name, pcsc.c lines 406-440: [None] is
    NULL, else the offset of the name. *)
Definition get_reader (names : list nat) (idx : Z) : option nat :=
  if Zlen names <=? idx then None else nth_error names (Z.to_nat idx).

(** pcsc_wait_for_card, pcsc.c lines 599-645.  [change] is
    SCardGetStatusChange: from the states asked for it gives its result and
    the event state of every reader; its effect on the event states when it
    fails does not matter.  The result is the value returned and [*idx]. *)
Fixpoint ask_states (n i : nat) (idx : Z) : list Z :=
  match n with
  | O => []
  | S k =>
    (if (idx =? PCSC_READER_ANY) || (idx =? Z.of_nat i)
     then SCARD_STATE_EMPTY else SCARD_STATE_IGNORE) :: ask_states k (S i) idx
  end.
Fixpoint find_present (i : Z) (ev : list Z) : option Z :=
  match ev with
  | [] => None
  | e :: t =>
    if negb (Z.land e SCARD_STATE_PRESENT =? 0) then Some i
    else find_present (i + 1) t
  end.
Definition wait_for_card (n : nat) (change : list Z -> Z * list Z) (idx : Z)
    : Z * Z :=
  let '(res, ev) := change (ask_states n 0 idx) in
  if res =? SCARD_E_TIMEOUT then (1, idx)
  else if negb (res =? SCARD_S_SUCCESS) then (-1, idx)
  else match find_present 0 ev with
       | Some i => (0, i)
       | None => (1, u64 (-1))
       end.

(** struct pcsc_reader_t, the part of pcsc.c lines 80-92. *)
Record reader := mkreader {
  r_card : Z; r_protocol : Z;
  r_atr : list Z; r_atr_len : Z;
  r_uid : list Z; r_uid_len : Z;
  r_type : Z
}.
Definition reader0 : reader := mkreader 0 0 (repeat 0 33) 0 (repeat 0 10) 0 TYPE_UNKNOWN.

(** pcsc_reader_trx, pcsc.c lines 820-862.  The result is the value returned,
    the receive buffer, [*rx_buf_len] and the service state. *)
Definition pcsc_trx {St} (sv : svc St) (r : reader) (s : St) (tx : list Z)
    (rx : list Z) (rx_len : Z) : out (Z * list Z * Z * St) :=
  match tx with
  | [] => Ret (-1, rx, rx_len, s)
  | _ =>
    if (r_protocol r =? SCARD_PROTOCOL_T0) || (r_protocol r =? SCARD_PROTOCOL_T1) then
      let '((res, d), s) :=
        sv_transmit sv s (r_card r) (r_protocol r) tx (Z.to_nat rx_len) in
      let* rx := put rx 0 d in
      if negb (res =? SCARD_S_SUCCESS) then Ret (-1, rx, rx_len, s)
      else Ret (0, rx, Zlen d, s)
    else Ret (-1, rx, rx_len, s)
  end.

(** pcsc_reader_internal_get_uid, pcsc.c lines 647-698. *)
Definition get_uid {St} (sv : svc St) (r : reader) (s : St) (uid : list Z)
    (uid_len : Z) : out (Z * list Z * Z * St) :=
  let* (res, rx, rx_len, s) :=
    pcsc_trx sv r s [0xFF; 0xCA; 0x00; 0x00; 0x00] (repeat 0 12) 12 in
  if negb (res =? 0) then Ret (res, uid, uid_len, s)
  else if rx_len <? 2 then Ret (-5, uid, uid_len, s)
  else
  let* sw1 := rd rx (Z.to_nat (rx_len - 2)) in
  let* sw2 := rd rx (Z.to_nat (rx_len - 1)) in
  let rx_len := rx_len - 2 in
  if (sw1 =? 0x6A) && (sw2 =? 0x81) then Ret (1, uid, uid_len, s)
  else if negb (sw1 =? 0x90) || negb (sw2 =? 0x00) then Ret (-6, uid, uid_len, s)
  else if uid_len <? rx_len then Ret (-7, uid, uid_len, s)
  else
  let* d := sub rx 0 (Z.to_nat rx_len) in
  let* uid := put uid 0 d in
  Ret (0, uid, rx_len, s).

(** pcsc_reader_disconnect, pcsc.c lines 770-795.  The UID is not cleared. *)
Definition disconnect {St} (sv : svc St) (r : reader) (s : St)
    : Z * reader * St :=
  let '(res, s) := sv_disconnect sv s (Some (r_card r)) SCARD_UNPOWER_CARD in
  if negb (res =? SCARD_S_SUCCESS) then (-1, r, s)
  else (0, mkreader 0 0 (repeat 0 33) 0 (r_uid r) (r_uid_len r) TYPE_UNKNOWN, s).

(** pcsc.c lines 733-741: may the ATR be the one PC/SC makes up for a
    contactless card? *)
Definition maybe_contactless (atr : list Z) (n : Z) : out bool :=
  if negb (4 <? n) then Ret false else
  let* a0 := rd atr 0 in
  if negb (a0 =? 0x3B) then Ret false else
  let* a1 := rd atr 1 in
  if negb (Z.land a1 0x80 =? 0x80) then Ret false else
  let* a2 := rd atr 2 in
  if negb (a2 =? 0x80) then Ret false else
  let* a3 := rd atr 3 in
  if negb (a3 =? 0x01) then Ret false else
  Ret (n =? 5 + Z.land a1 0x0F).

(** pcsc_reader_connect, pcsc.c lines 700-768. *)
Definition connect {St} (sv : svc St) (r : reader) (s : St)
    : out (Z * reader * St) :=
  let '((res, h, p), s) := sv_connect sv s SCARD_SHARE_EXCLUSIVE in
  if negb (res =? SCARD_S_SUCCESS) then
    (* the service sets neither the handle nor the protocol *)
    Ret (-1, r, s)
  else
  let '((res, p, d), s) := sv_status sv s h (length (r_atr r)) in
  let* atr := put (r_atr r) 0 d in
  let r := mkreader h p atr (Zlen d) (r_uid r) (r_uid_len r) (r_type r) in
  if negb (res =? SCARD_S_SUCCESS) then
    let '(_, r, s) := disconnect sv r s in
    Ret (-1, r, s)
  else
  let typed := fun r t => mkreader (r_card r) (r_protocol r) (r_atr r)
                 (r_atr_len r) (r_uid r) (r_uid_len r) t in
  let* m := maybe_contactless (r_atr r) (r_atr_len r) in
  if m then
    let* (res, uid, uid_len, s) := get_uid sv r s (r_uid r) (Zlen (r_uid r)) in
    let r := mkreader (r_card r) (r_protocol r) (r_atr r) (r_atr_len r)
               uid uid_len (r_type r) in
    if res <? 0 then Ret (res, r, s)
    else if 0 <? res then Ret (TYPE_CONTACT, typed r TYPE_CONTACT, s)
    else Ret (TYPE_CONTACTLESS, typed r TYPE_CONTACTLESS, s)
  else Ret (TYPE_CONTACT, typed r TYPE_CONTACT, s).

(** pcsc_reader_get_atr, pcsc.c lines 797-818.  The capacity of the caller's
    buffer is not passed in ([*atr_len] is output only). *)
Definition get_atr (r : reader) (out_buf : list Z) : out (Z * list Z * option Z) :=
  if r_atr_len r =? 0 then Ret (1, out_buf, None)
  else if negb (r_type r =? TYPE_CONTACT) then Ret (2, out_buf, None)
  else
    let* d := sub (r_atr r) 0 (Z.to_nat (r_atr_len r)) in
    let* b := put out_buf 0 d in
    Ret (0, b, Some (r_atr_len r)).
