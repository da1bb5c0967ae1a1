(** Model of the descriptions of bit fields in src/emv_strings.c.

    A function that lists texts is modelled by the texts it hands to emv_str_list_add, in
    order, together with its return code; [emit] then adds them to the caller's buffer.  The C
    code adds each text as it goes.  emv_str_list_add has no result and does not change what is
    read (the buffer and the field do not overlap), so the order does not matter.
    The statements of the functions are data ([stmt]), run by [exec]: masks and texts are those
    of the C code, with macro names replaced by their values in src/emv_fields.h. *)
From Coq Require Import String.
From Verif Require Import Base StrModel CapduModel FieldsModel.
Open Scope string_scope.
Open Scope Z_scope.
Open Scope list_scope.

(** One statement about the field [v]; the text "" stands for no call.
    [If [(i,m); (j,n)] yes no]: if (v[i] & m || v[j] & n) add(yes) else add(no).
    [Sw i m cases other]: switch (v[i] & m), with [other] for default.
    [Nm c i m s pre f post]: if (v[i] & c) add(pre %f post, (v[i] & m) >> s); no condition if c is 0. *)
Inductive stmt :=
| If (c : list (Z * Z)) (yes no : string)
| Sw (i m : Z) (cases : list (Z * string)) (other : string)
| Nm (c i m s : Z) (pre : string) (f : Z -> list Z) (post : string).

Definition line (s : string) : list (list Z) := match s with EmptyString => [] | _ => [lit s] end.
Fixpoint any (v : list Z) (c : list (Z * Z)) : out bool :=
  match c with
  | [] => Ret false
  | (i, m) :: c => let* b := rd v (Z.to_nat i) in if negb (Z.land b m =? 0) then Ret true else any v c
  end.
Fixpoint pick (x : Z) (cases : list (Z * string)) (other : string) : string :=
  match cases with [] => other | (k, s) :: t => if x =? k then s else pick x t other end.
Definition exec (v : list Z) (st : stmt) : out (list (list Z)) :=
  match st with
  | If c yes no => let* b := any v c in Ret (line (if b then yes else no))
  | Sw i m cases other => let* b := rd v (Z.to_nat i) in Ret (line (pick (Z.land b m) cases other))
  | Nm c i m s pre f post =>
    let* b := rd v (Z.to_nat i) in
    Ret (if (c =? 0) || negb (Z.land b c =? 0) then [lit pre ++ f (Z.shiftr (Z.land b m) s) ++ lit post] else [])
  end.
Fixpoint run (v : list Z) (p : list stmt) : out (list (list Z)) :=
  match p with [] => Ret [] | st :: p => let* a := exec v st in let* b := run v p in Ret (a ++ b) end.

(** emv_str_list_init on the buffer, then the texts one by one. *)
Definition emit (r : Z) (texts : list (list Z)) (str : list Z) : out (Z * list Z) :=
  let* itr := add_all str_list_add (str_list_init str) texts in Ret (r, s_buf itr).

(** The frame all functions for fields of [n] octets share.  Without a buffer some give -1 ([strict]),
    others 0. *)
Definition field_list (strict : bool) (n : Z) (p : list stmt) (v str : list Z) : out (Z * list Z) :=
  if Zlen v =? 0 then Ret (-1, str)
  else if Zlen str =? 0 then Ret ((if strict then -1 else 0), str)
  else if negb (Zlen v =? n) then Ret (1, str)
  else let* t := run v p in emit 0 t str.

(** %u and %zu of a number below 10^10; %02u. *)
Fixpoint p_dec_n (k : nat) (v : Z) : list Z :=
  match k with O => [] | Datatypes.S k => if v <? 10 then [48 + v] else p_dec_n k (v / 10) ++ [48 + v mod 10] end.
Definition p_dec (v : Z) : list Z := p_dec_n 10 v.
Definition p_02u (v : Z) : list Z := if v <? 10 then 48 :: p_dec v else p_dec v.

(** emv_strings.c:2121-2214 [emv_term_caps_get_string_list]. *)
Definition term_caps_prog : list stmt :=
  [ If [(0, 0xFF)] "" "Card Data Input Capability: None";
    If [(0, 0x80)] "Card Data Input Capability: Manual key entry" "";
    If [(0, 0x40)] "Card Data Input Capability: Magnetic stripe" "";
    If [(0, 0x20)] "Card Data Input Capability: IC with contacts" "";
    If [(0, 0x1F)] "Card Data Input Capability: RFU" "";
    If [(1, 0xFF)] "" "CVM Capability: None";
    If [(1, 0x80)] "CVM Capability: Plaintext PIN for ICC verification" "";
    If [(1, 0x40)] "CVM Capability: Enciphered PIN for online verification" "";
    If [(1, 0x20)] "CVM Capability: Signature" "";
    If [(1, 0x10)] "CVM Capability: Enciphered PIN for offline verification (RSA ODE)" "";
    If [(1, 0x08)] "CVM Capability: No CVM required" "";
    If [(1, 0x04)] "CVM Capability: Online Biometric" "";
    If [(1, 0x02)] "CVM Capability: Offline Biometric" "";
    If [(1, 0x01)] "CVM Capability: Enciphered PIN for offline verification (ECC ODE)" "";
    If [(2, 0xFF)] "" "Security Capability: None";
    If [(2, 0x80)] "Security Capability: Static Data Authentication (SDA)" "";
    If [(2, 0x40)] "Security Capability: Dynamic Data Authentication (DDA)" "";
    If [(2, 0x20)] "Security Capability: Card capture" "";
    If [(2, 0x08)] "Security Capability: Combined DDA/Application Cryptogram Generation (CDA)" "";
    If [(2, 0x04)] "Security Capability: Extended Data Authentication (XDA)" "";
    If [(2, 0x13)] "Security Capability: RFU" "" ].
Definition term_caps_list := field_list true 3 term_caps_prog.

(** emv_strings.c:2302-2437 [emv_addl_term_caps_get_string_list]. *)
Definition addl_term_caps_prog : list stmt :=
  [ If [(0, 0xFF); (1, 0xFF)] "" "Transaction Type Capability: None";
    If [(0, 0x80)] "Transaction Type Capability: Cash" "";
    If [(0, 0x40)] "Transaction Type Capability: Goods" "";
    If [(0, 0x20)] "Transaction Type Capability: Services" "";
    If [(0, 0x10)] "Transaction Type Capability: Cashback" "";
    If [(0, 0x08)] "Transaction Type Capability: Inquiry" "";
    If [(0, 0x04)] "Transaction Type Capability: Transfer" "";
    If [(0, 0x02)] "Transaction Type Capability: Payment" "";
    If [(0, 0x01)] "Transaction Type Capability: Administrative" "";
    If [(1, 0x80)] "Transaction Type Capability: Cash deposit" "";
    If [(1, 0x7F)] "Transaction Type Capability: RFU" "";
    If [(2, 0xFF)] "" "Terminal Data Input Capability: None";
    If [(2, 0x80)] "Terminal Data Input Capability: Numeric keys" "";
    If [(2, 0x40)] "Terminal Data Input Capability: Alphabetic and special characters keys" "";
    If [(2, 0x20)] "Terminal Data Input Capability: Command keys" "";
    If [(2, 0x10)] "Terminal Data Input Capability: Function keys" "";
    If [(2, 0x0F)] "Terminal Data Input Capability: RFU" "";
    If [(3, 0xF0)] "" "Terminal Data Input Capability: No print, electronic or display output";
    If [(3, 0x80)] "Terminal Data Output Capability: Print or electronic, attendant" "";
    If [(3, 0x40)] "Terminal Data Output Capability: Print or electronic, cardholder" "";
    If [(3, 0x20)] "Terminal Data Output Capability: Display, attendant" "";
    If [(3, 0x10)] "Terminal Data Output Capability: Display cardholder" "";
    If [(3, 0x02)] "Terminal Data Output Capability: Code table 10" "";
    If [(3, 0x01)] "Terminal Data Output Capability: Code table 9" "";
    If [(3, 0x0C)] "Terminal Data Output Capability: RFU" "";
    If [(4, 0x80)] "Terminal Data Output Capability: Code table 8" "";
    If [(4, 0x40)] "Terminal Data Output Capability: Code table 7" "";
    If [(4, 0x20)] "Terminal Data Output Capability: Code table 6" "";
    If [(4, 0x10)] "Terminal Data Output Capability: Code table 5" "";
    If [(4, 0x08)] "Terminal Data Output Capability: Code table 4" "";
    If [(4, 0x04)] "Terminal Data Output Capability: Code table 3" "";
    If [(4, 0x02)] "Terminal Data Output Capability: Code table 2" "";
    If [(4, 0x01)] "Terminal Data Output Capability: Code table 1" "" ].
Definition addl_term_caps_list := field_list true 5 addl_term_caps_prog.

(** emv_strings.c:2630-2698 [emv_aip_get_string_list]. *)
Definition aip_prog : list stmt :=
  [ If [(0, 0x80)] "Extended Data Authentication (XDA) is supported" "";
    If [(0, 0x40)] "Static Data Authentication (SDA) is supported" "";
    If [(0, 0x20)] "Dynamic Data Authentication (DDA) is supported" "";
    If [(0, 0x10)] "Cardholder verification is supported" "";
    If [(0, 0x08)] "Terminal risk management is to be performed" "";
    If [(0, 0x04)] "Issuer authentication is supported" "";
    If [(0, 0x02)] "On device cardholder verification is supported" "";
    If [(0, 0x01)] "Combined DDA/Application Cryptogram Generation (CDA) is supported" "";
    If [(1, 0x80)] "Contactless EMV mode is supported" "";
    If [(1, 0x40)] "Mobile phone" "";
    If [(1, 0x20)] "Contactless transaction" "";
    If [(1, 0x1E)] "RFU" "";
    If [(1, 0x01)] "Relay Resistance Protocol (RRP) is supported" "" ].
Definition aip_list := field_list true 2 aip_prog.

(** emv_strings.c:2776-2841 [emv_app_usage_control_get_string_list]. *)
Definition auc_prog : list stmt :=
  [ If [(0, 0x80)] "Valid for domestic cash transactions" "";
    If [(0, 0x40)] "Valid for international cash transactions" "";
    If [(0, 0x20)] "Valid for domestic goods" "";
    If [(0, 0x10)] "Valid for international goods" "";
    If [(0, 0x08)] "Valid for domestic services" "";
    If [(0, 0x04)] "Valid for international services" "";
    If [(0, 0x02)] "Valid at ATMs" "";
    If [(0, 0x01)] "Valid at terminals other than ATMs" "";
    If [(1, 0x80)] "Domestic cashback allowed" "";
    If [(1, 0x40)] "International cashback allowed" "";
    If [(1, 0x3F)] "RFU" "" ].
Definition auc_list := field_list false 2 auc_prog.

(** emv_strings.c:3560-3718 [emv_tvr_get_string_list]. *)
Definition tvr_prog : list stmt :=
  [ If [(0, 0x80)] "Offline data authentication was not performed" "";
    If [(0, 0x40)] "Static Data Authentication (SDA) failed" "";
    If [(0, 0x20)] "Integrated circuit card (ICC) data missing" "";
    If [(0, 0x10)] "Card appears on terminal exception file" "";
    If [(0, 0x08)] "Dynamic Data Authentication (DDA) failed" "";
    If [(0, 0x04)] "Combined DDA/Application Cryptogram Generation (CDA) failed" "";
    If [(0, 0x02)] "Static Data Authentication (SDA) selected" "";
    If [(0, 0x01)] "Extended Data Authentication (XDA) selected" "";
    If [(1, 0x80)] "ICC and terminal have different application versions" "";
    If [(1, 0x40)] "Expired application" "";
    If [(1, 0x20)] "Application not yet effective" "";
    If [(1, 0x10)] "Requested service not allowed for card product" "";
    If [(1, 0x08)] "New card" "";
    If [(1, 0x04)] "RFU" "";
    If [(1, 0x02)] "Biometric performed and successful" "";
    If [(1, 0x01)] "Biometric template format not supported" "";
    If [(2, 0x80)] "Cardholder verification was not successful" "";
    If [(2, 0x40)] "Unrecognised CVM" "";
    If [(2, 0x20)] "PIN Try Limit exceeded" "";
    If [(2, 0x10)] "PIN entry required and PIN pad not present or not working" "";
    If [(2, 0x08)] "PIN entry required, PIN pad present, but PIN was not entered" "";
    If [(2, 0x04)] "Online CVM captured" "";
    If [(2, 0x02)] "Biometric required but Biometric capture device not working" "";
    If [(2, 0x01)] "Biometric required, Biometric capture device present, but Biometric Subtype entry was bypassed" "";
    If [(3, 0x80)] "Transaction exceeds floor limit" "";
    If [(3, 0x40)] "Lower consecutive offline limit exceeded" "";
    If [(3, 0x20)] "Upper consecutive offline limit exceeded" "";
    If [(3, 0x10)] "Transaction selected randomly for online processing" "";
    If [(3, 0x08)] "Merchant forced transaction online" "";
    If [(3, 0x04)] "Biometric Try Limit exceeded" "";
    If [(3, 0x02)] "A selected Biometric Type not supported" "";
    If [(3, 0x01)] "XDA signature verification failed" "";
    If [(4, 0x80)] "Default TDOL used" "";
    If [(4, 0x40)] "Issuer authentication failed" "";
    If [(4, 0x20)] "Script processing failed before final GENERATE AC" "";
    If [(4, 0x10)] "Script processing failed after final GENERATE AC" "";
    If [(4, 0x04)] "CA ECC key missing" "";
    If [(4, 0x02)] "ECC key recovery failed" "";
    If [(4, 0x09)] "Reserved for use by the EMV Contactless Specifications" "" ].
Definition tvr_list := field_list false 5 tvr_prog.

(** emv_strings.c:3720-3770 [emv_tsi_get_string_list]. *)
Definition tsi_prog : list stmt :=
  [ If [(0, 0x80)] "Offline data authentication was performed" "";
    If [(0, 0x40)] "Cardholder verification was performed" "";
    If [(0, 0x20)] "Card risk management was performed" "";
    If [(0, 0x10)] "Issuer authentication was performed" "";
    If [(0, 0x08)] "Terminal risk management was performed" "";
    If [(0, 0x04)] "Script processing was performed" "";
    If [(0, 0x03); (1, 0xFF)] "RFU" "" ].
Definition tsi_list := field_list false 2 tsi_prog.

(** emv_strings.c:4713-4840 [emv_terminal_risk_management_data_get_string_list]. *)
Definition trmd_prog : list stmt :=
  [ If [(0, 0x80)] "Restart supported" "";
    If [(0, 0x40)] "Enciphered PIN verified online (Contactless)" "";
    If [(0, 0x20)] "Signature (paper) (Contactless)" "";
    If [(0, 0x10)] "Enciphered PIN verification performed by ICC (Contactless)" "";
    If [(0, 0x08)] "No CVM required (Contactless)" "";
    If [(0, 0x04)] "CDCVM (Contactless)" "";
    If [(0, 0x02)] "Plaintext PIN verification performed by ICC (Contactless)" "";
    If [(0, 0x01)] "Present and Hold supported" "";
    If [(1, 0x80)] "CVM Limit exceeded" "";
    If [(1, 0x40)] "Enciphered PIN verified online (Contact)" "";
    If [(1, 0x20)] "Signature (paper) (Contact)" "";
    If [(1, 0x10)] "Enciphered PIN verification performed by ICC (Contact)" "";
    If [(1, 0x08)] "No CVM required (Contact)" "";
    If [(1, 0x04)] "CDCVM (Contact)" "";
    If [(1, 0x02)] "Plaintext PIN verification performed by ICC (Contact)" "";
    If [(2, 0x80)] "Mag-stripe mode contactless transactions not supported" "";
    If [(2, 0x40)] "EMV mode contactless transactions not supported" "";
    If [(2, 0x20)] "CDCVM without CDA supported" "";
    If [(3, 0x80)] "CDCVM bypass requested" "";
    If [(3, 0x40)] "SCA exempt" "";
    If [(1, 0x01); (2, 0x1F); (3, 0x3F); (4, 0xFF); (5, 0xFF); (6, 0xFF); (7, 0xFF)] "RFU" "" ].
Definition trmd_list := field_list false 8 trmd_prog.

(** emv_strings.c:4842-4966 [emv_ttq_get_string_list]. *)
Definition ttq_prog : list stmt :=
  [ If [(0, 0x80)] "Mag-stripe mode supported" "Mag-stripe mode not supported";
    If [(0, 0x40)] "RFU" "";
    If [(0, 0x20)] "EMV mode supported" "EMV mode not supported";
    If [(0, 0x10)] "EMV contact chip supported" "EMV contact chip not supported";
    If [(0, 0x08)] "Offline-only reader" "Online capable reader";
    If [(0, 0x04)] "Online PIN supported" "Online PIN not supported";
    If [(0, 0x02)] "Signature supported" "Signature not supported";
    If [(0, 0x01)] "Offline Data Authentication for Online Authorizations supported" "Offline Data Authentication for Online Authorizations not supported";
    If [(1, 0x80)] "Online cryptogram required" "Online cryptogram not required";
    If [(1, 0x40)] "CVM required" "CVM not required";
    If [(1, 0x20)] "(Contact Chip) Offline PIN supported" "(Contact Chip) Offline PIN not supported";
    If [(1, 0x1F)] "RFU" "";
    If [(2, 0x80)] "Issuer Update Processing supported" "Issuer Update Processing not supported";
    If [(2, 0x40)] "Consumer Device CVM supported" "Consumer Device CVM not supported";
    If [(2, 0x08)] "Consumer Device CVM required" "";
    If [(2, 0x37)] "RFU" "";
    If [(3, 0x80)] "fDDA v1.0 Supported" "";
    If [(3, 0x7F)] "RFU" "" ].
Definition ttq_list := field_list false 4 ttq_prog.

(** emv_strings.c:4968-5036 [emv_ctq_get_string_list]. *)
Definition ctq_prog : list stmt :=
  [ If [(0, 0x80)] "Online PIN Required" "";
    If [(0, 0x40)] "Signature Required" "";
    If [(0, 0x20)] "Go Online if Offline Data Authentication Fails and Reader is online capable" "";
    If [(0, 0x10)] "Switch Interface if Offline Data Authentication fails and Reader supports contact chip" "";
    If [(0, 0x08)] "Go Online if Application Expired" "";
    If [(0, 0x04)] "Switch Interface for Cash Transactions" "";
    If [(0, 0x02)] "Switch Interface for Cashback Transactions" "";
    If [(0, 0x01)] "Not valid for contactless ATM transactions" "";
    If [(1, 0x80)] "Consumer Device CVM Performed" "";
    If [(1, 0x40)] "Card supports Issuer Update Processing at the POS" "";
    If [(1, 0x3F)] "RFU" "" ].
Definition ctq_list := field_list false 2 ctq_prog.

(** emv_strings.c:5444-5545 [emv_amex_enh_cl_reader_caps_get_string_list]. *)
Definition enh_caps_prog : list stmt :=
  [ If [(0, 0x80)] "Contact mode supported" "";
    If [(0, 0x40)] "Contactless Mag-Stripe Mode supported" "";
    If [(0, 0x20)] "Contactless EMV full online mode supported (legacy feature and no longer supported)" "";
    If [(0, 0x10)] "Contactless EMV partial online mode supported" "";
    If [(0, 0x08)] "Contactless Mobile Supported" "";
    If [(0, 0x04)] "Try Another Interface after a decline" "";
    If [(0, 0x03)] "RFU" "";
    If [(1, 0x80)] "Mobile CVM supported" "";
    If [(1, 0x40)] "Online PIN supported" "";
    If [(1, 0x20)] "Signature supported" "";
    If [(1, 0x10)] "Plaintext Offline PIN supported" "";
    If [(1, 0x0F)] "RFU" "";
    If [(2, 0x80)] "Reader is offline only" "";
    If [(2, 0x40)] "CVM Required" "";
    If [(2, 0x3F)] "RFU" "";
    If [(3, 0x80)] "Terminal exempt from No CVM checks" "";
    If [(3, 0x40)] "Delayed Authorisation Terminal" "";
    If [(3, 0x20)] "Transit Terminal" "";
    If [(3, 0x18)] "RFU" "";
    Sw 3 0x07 [(0x01, "C-4 kernel version 2.2 - 2.3");
       (0x02, "C-4 kernel version 2.4 - 2.6");
       (0x03, "C-4 kernel version 2.7")] "C-4 kernel version unknown" ].
Definition enh_caps_list := field_list false 4 enh_caps_prog.

(** emv_strings.c:5355-5442 [emv_visa_form_factor_indicator_get_string_list]. *)
Definition ffi_prog : list stmt :=
  [ Sw 0 0x1F [(0x00, "Consumer Payment Device Form Factor: Card");
       (0x01, "Consumer Payment Device Form Factor: Mini-card");
       (0x02, "Consumer Payment Device Form Factor: Non-card Form Factor");
       (0x03, "Consumer Payment Device Form Factor: Consumer mobile phone");
       (0x04, "Consumer Payment Device Form Factor: Wrist-worn device")] "Consumer Payment Device Form Factor: Unknown";
    If [(1, 0x80)] "Consumer Payment Device Features: Passcode Capable" "";
    If [(1, 0x40)] "Consumer Payment Device Features: Signature Panel" "";
    If [(1, 0x20)] "Consumer Payment Device Features: Hologram" "";
    If [(1, 0x10)] "Consumer Payment Device Features: CVV2" "";
    If [(1, 0x08)] "Consumer Payment Device Features: Two-way Messaging" "";
    If [(1, 0x04)] "Consumer Payment Device Features: Cloud Based Payment Credentials" "";
    If [(1, 0x02)] "Consumer Payment Device Features: Biometric Cardholder Verification Capable" "";
    If [(1, 0x01)] "Consumer Payment Device Features: RFU" "";
    If [(2, 0xFF)] "Form Factor Indicator (FFI) byte 3: RFU" "";
    Sw 3 0x0F [(0x00, "Payment Transaction Technology: Proximity Contactless interface using ISO 14443 (including NFC)");
       (0x01, "Payment Transaction Technology: Not used in VCPS")] "Payment Transaction Technology: Unknown";
    If [(3, 0xF0)] "Payment Transaction Technology: RFU" "" ].
Definition ffi_list (v str : list Z) : out (Z * list Z) :=
  if Zlen v =? 0 then Ret (-1, str)
  else if Zlen str =? 0 then Ret (0, str)
  else if negb (Zlen v =? 4) then Ret (1, str)
  else
    let* b := rd v 0 in
    if negb (Z.land b 0xE0 =? 0x20) then emit 0 [lit "Form Factor Indicator (FFI): Version Number " ++ p_dec (Z.shiftr b 5)] str
    else let* t := run v ffi_prog in emit 0 t str.

(** Issuer Application Data (field 9F10).  The index of cvr[k] is that of the octet of iad. *)
(** emv_strings.c:3851-4013 [emv_iad_ccd_append_string_list]. *)
Definition iad_ccd_prog : list stmt :=
  [ Nm 0 2 0xFF 0 "Derivation Key Index (DKI): " p_02X "";
    Sw 3 0xC0 [(0x00, "Card Verification Results (CVR): Second GENERATE AC returned AAC");
       (0x40, "Card Verification Results (CVR): Second GENERATE AC returned TC");
       (0x80, "Card Verification Results (CVR): Second GENERATE AC Not Requested");
       (0xC0, "Card Verification Results (CVR): Second GENERATE AC RFU")] "";
    Sw 3 0x30 [(0x00, "Card Verification Results (CVR): First GENERATE AC returned AAC");
       (0x10, "Card Verification Results (CVR): First GENERATE AC returned TC");
       (0x20, "Card Verification Results (CVR): First GENERATE AC returned ARQC");
       (0x30, "Card Verification Results (CVR): First GENERATE AC RFU")] "";
    If [(3, 0x08)] "Card Verification Results (CVR): Combined DDA/Application Cryptogram Generation (CDA) Performed" "";
    If [(3, 0x04)] "Card Verification Results (CVR): Offline Dynamic Data Authentication (DDA) Performed" "";
    If [(3, 0x02)] "Card Verification Results (CVR): Issuer Authentication Not Performed" "";
    If [(3, 0x01)] "Card Verification Results (CVR): Issuer Authentication Failed" "";
    Nm 0 4 0xF0 4 "Card Verification Results (CVR): PIN Try Counter is " p_dec "";
    If [(4, 0x08)] "Card Verification Results (CVR): Offline PIN Verification Performed" "";
    If [(4, 0x04)] "Card Verification Results (CVR): Offline PIN Verification Performed and PIN Not Successfully Verified" "";
    If [(4, 0x02)] "Card Verification Results (CVR): PIN Try Limit Exceeded" "";
    If [(4, 0x01)] "Card Verification Results (CVR): Last Online Transaction Not Completed" "";
    If [(5, 0x80)] "Card Verification Results (CVR): Lower Offline Transaction Count Limit Exceeded" "";
    If [(5, 0x40)] "Card Verification Results (CVR): Upper Offline Transaction Count Limit Exceeded" "";
    If [(5, 0x20)] "Card Verification Results (CVR): Lower Cumulative Offline Amount Limit Exceeded" "";
    If [(5, 0x20)] "Card Verification Results (CVR): Upper Cumulative Offline Amount Limit Exceeded" "";
    If [(5, 0x08)] "Card Verification Results (CVR): Issuer-discretionary bit 1" "";
    If [(5, 0x04)] "Card Verification Results (CVR): Issuer-discretionary bit 2" "";
    If [(5, 0x02)] "Card Verification Results (CVR): Issuer-discretionary bit 3" "";
    If [(5, 0x01)] "Card Verification Results (CVR): Issuer-discretionary bit 4" "";
    Nm 0xF0 6 0xF0 4 "Card Verification Results (CVR): " p_dec " Successfully Processed Issuer Script Commands Containing Secure Messaging";
    If [(6, 0x08)] "Card Verification Results (CVR): Issuer Script Processing Failed" "";
    If [(6, 0x04)] "Card Verification Results (CVR): Offline Data Authentication Failed on Previous Transaction" "";
    If [(6, 0x02)] "Card Verification Results (CVR): Go Online on Next Transaction Was Set" "";
    If [(6, 0x01)] "Card Verification Results (CVR): Unable to go Online" "";
    If [(7, 0xFF)] "Card Verification Results (CVR): RFU" "" ].
Definition iad_ccd (iad : list Z) : out (Z * list (list Z)) :=
  if negb (Zlen iad =? 32) then Ret (-1, []) else
  let* a := rd iad 0 in
  if negb (a =? 0x0F) then Ret (-1, []) else
  let* q := rd iad 16 in
  if negb (q =? 0x0F) then Ret (-1, []) else
  let* c := rd iad 1 in
  if Z.land c 0x0F =? 0x05 then let* t := run iad iad_ccd_prog in Ret (0, lit "Cryptogram Version: TDES" :: t)
  else if Z.land c 0x0F =? 0x06 then let* t := run iad iad_ccd_prog in Ret (0, lit "Cryptogram Version: AES" :: t)
  else Ret (1, [lit "Cryptogram Version: Unknown"]).

(** emv_strings.c:4015-4245 [emv_iad_mchip_append_string_list]. *)
Definition iad_mchip_a_prog : list stmt :=
  [ If [(1, 0x01)] "Cryptogram: Counter included in AC data" "Cryptogram: Counters not included in AC data";
    Sw 2 0xC0 [(0x00, "Card Verification Results (CVR): Second GENERATE AC returned AAC");
       (0x40, "Card Verification Results (CVR): Second GENERATE AC returned TC");
       (0x80, "Card Verification Results (CVR): Second GENERATE AC Not Requested");
       (0xC0, "Card Verification Results (CVR): Second GENERATE AC RFU")] "";
    Sw 2 0x30 [(0x00, "Card Verification Results (CVR): First GENERATE AC returned AAC");
       (0x10, "Card Verification Results (CVR): First GENERATE AC returned TC");
       (0x20, "Card Verification Results (CVR): First GENERATE AC returned ARQC");
       (0x30, "Card Verification Results (CVR): First GENERATE AC RFU")] "";
    If [(2, 0x08)] "Card Verification Results (CVR): Date Check Failed" "";
    If [(2, 0x04)] "Card Verification Results (CVR): Offline PIN Verification Performed" "";
    If [(2, 0x02)] "Card Verification Results (CVR): Offline Encrypted PIN Verification Performed" "";
    If [(2, 0x01)] "Card Verification Results (CVR): Offline PIN Verification Successful" "";
    If [(3, 0x80)] "Card Verification Results (CVR): Dynamic Data Authentication (DDA) Returned" "";
    If [(3, 0x40)] "Card Verification Results (CVR): Combined DDA/Application Cryptogram Generation (CDA) Returned in First GENERATE AC" "";
    If [(3, 0x20)] "Card Verification Results (CVR): Combined DDA/Application Cryptogram Generation (CDA) Returned in Second GENERATE AC" "";
    If [(3, 0x10)] "Card Verification Results (CVR): Issuer Authentication Performed" "";
    If [(3, 0x08)] "Card Verification Results (CVR): Card Issuer Action Codes (CIAC) Default Skipped on Cardholder Activated Terminal Level 3 (CAT3)" "";
    If [(3, 0x04)] "Card Verification Results (CVR): Offline Change PIN Result Successful" "";
    If [(3, 0x03)] "Card Verification Results (CVR): Issuer Discretionary" "";
    Nm 0xF0 4 0xF0 4 "Card Verification Results (CVR): Script Counter is " p_dec "";
    Nm 0x0F 4 0x0F 0 "Card Verification Results (CVR): PIN Try Counter is " p_dec "";
    If [(5, 0x80)] "Card Verification Results (CVR): Last Online Transaction Not Completed" "";
    If [(5, 0x40)] "Card Verification Results (CVR): Unable To Go Online" "";
    If [(5, 0x20)] "Card Verification Results (CVR): Offline PIN Verification Not Performed" "";
    If [(5, 0x10)] "Card Verification Results (CVR): Offline PIN Verification Failed" "";
    If [(5, 0x08)] "Card Verification Results (CVR): PTL Exceeded" "";
    If [(5, 0x04)] "Card Verification Results (CVR): International Transaction" "";
    If [(5, 0x02)] "Card Verification Results (CVR): Domestic Transaction" "";
    If [(5, 0x01)] "Card Verification Results (CVR): Terminal Erroneously Considers Offline PIN OK" "" ].

(** emv_strings.c:4015-4245 [emv_iad_mchip_append_string_list] for length 18 []. *)
Definition iad_mchip_b4_prog : list stmt :=
  [ If [(6, 0x80)] "Card Verification Results (CVR): Lower Consecutive Offline Limit Exceeded" "";
    If [(6, 0x40)] "Card Verification Results (CVR): Upper Consecutive Offline Limit Exceeded" "";
    If [(6, 0x20)] "Card Verification Results (CVR): Lower Cumulative Offline Limit Exceeded" "";
    If [(6, 0x10)] "Card Verification Results (CVR): Upper Cumulative Offline Limit Exceeded" "" ].

(** emv_strings.c:4015-4245 [emv_iad_mchip_append_string_list] for other lengths []. *)
Definition iad_mchip_badv_prog : list stmt :=
  [ If [(6, 0x80)] "Card Verification Results (CVR): Lower Consecutive Counter 1 Limit Exceeded" "";
    If [(6, 0x40)] "Card Verification Results (CVR): Upper Consecutive Counter 1 Limit Exceeded" "";
    If [(6, 0x20)] "Card Verification Results (CVR): Lower Cumulative Accumulator Limit Exceeded" "";
    If [(6, 0x10)] "Card Verification Results (CVR): Upper Cumulative Accumulator Limit Exceeded" "" ].

(** emv_strings.c:4015-4245 [emv_iad_mchip_append_string_list] after that []. *)
Definition iad_mchip_c_prog : list stmt :=
  [ If [(6, 0x08)] "Card Verification Results (CVR): Go Online On Next Transaction Was Set" "";
    If [(6, 0x04)] "Card Verification Results (CVR): Issuer Authentication Failed" "";
    If [(6, 0x02)] "Card Verification Results (CVR): Script Received" "";
    If [(6, 0x01)] "Card Verification Results (CVR): Script Failed" "";
    If [(7, 0x80)] "Card Verification Results (CVR): Lower Consecutive Counter 2 Limit Exceeded" "";
    If [(7, 0x40)] "Card Verification Results (CVR): Upper Consecutive Counter 2 Limit Exceeded" "";
    If [(7, 0x20)] "Card Verification Results (CVR): Lower Cumulative Accumulator 2 Limit Exceeded" "";
    If [(7, 0x10)] "Card Verification Results (CVR): Upper Cumulative Accumulator 2 Limit Exceeded" "";
    If [(7, 0x08)] "Card Verification Results (CVR): MTA Limit Exceeded" "";
    If [(7, 0x04)] "Card Verification Results (CVR): Number Of Days Offline Limit Exceeded" "";
    If [(7, 0x02)] "Card Verification Results (CVR): Match Found In Additional Check Table" "";
    If [(7, 0x01)] "Card Verification Results (CVR): No Match Found In Additional Check Table" "" ].
Definition iad_mchip (iad : list Z) : out (Z * list (list Z)) :=
  let len := Zlen iad in
  if negb ((len =? 18) || (len =? 20) || (len =? 26) || (len =? 28)) then Ret (-1, []) else
  let* c := rd iad 1 in
  if negb (Z.land c 0xF0 =? 0x10) || negb (Z.land c 0x08 =? 0) || negb (Z.land c 0x02 =? 0) then Ret (-1, []) else
  let* k := rd iad 0 in
  let t := [lit "Derivation Key Index (DKI): " ++ p_02X k; lit "Cryptogram Version Number (CVN): " ++ p_02X c] in
  let key := Z.land c 0x06 in
  if negb ((key =? 0x00) || (key =? 0x04)) then Ret (1, t ++ [lit "Cryptogram: Unknown session key"]) else
  let t := t ++ [if key =? 0x00 then lit "Cryptogram: Mastercard Proprietary SKD session key" else lit "Cryptogram: EMV CSK session key"] in
  let* a := run iad iad_mchip_a_prog in
  let* b := run iad (if len =? 18 then iad_mchip_b4_prog else iad_mchip_badv_prog) in
  let* z := run iad iad_mchip_c_prog in
  Ret (0, t ++ a ++ b ++ z).

(** emv_strings.c:4247-4370 [emv_iad_vsdc_0_1_3_append_string_list]. *)
Definition iad_vsdc_013_prog : list stmt :=
  [ Nm 0 1 0xFF 0 "Derivation Key Index (DKI): " p_02X "";
    Nm 0 2 0xFF 0 "Cryptogram Version Number (CVN): " (fun x => p_02X x ++ lit " (CVN" ++ p_02u x) ")";
    Sw 4 0xC0 [(0x00, "Card Verification Results (CVR): Second GENERATE AC returned AAC");
       (0x40, "Card Verification Results (CVR): Second GENERATE AC returned TC");
       (0x80, "Card Verification Results (CVR): Second GENERATE AC Not Requested");
       (0xC0, "Card Verification Results (CVR): Second GENERATE AC RFU")] "";
    Sw 4 0x30 [(0x00, "Card Verification Results (CVR): First GENERATE AC returned AAC");
       (0x10, "Card Verification Results (CVR): First GENERATE AC returned TC");
       (0x20, "Card Verification Results (CVR): First GENERATE AC returned ARQC");
       (0x30, "Card Verification Results (CVR): First GENERATE AC RFU")] "";
    If [(4, 0x08)] "Card Verification Results (CVR): Issuer Authentication performed and failed" "";
    If [(4, 0x04)] "Card Verification Results (CVR): Offline PIN verification performed" "";
    If [(4, 0x02)] "Card Verification Results (CVR): Offline PIN verification failed" "";
    If [(4, 0x01)] "Card Verification Results (CVR): Unable to go online" "";
    If [(5, 0x80)] "Card Verification Results (CVR): Last online transaction not completed" "";
    If [(5, 0x40)] "Card Verification Results (CVR): PIN Try Limit exceeded" "";
    If [(5, 0x20)] "Card Verification Results (CVR): Exceeded velocity checking counters" "";
    If [(5, 0x10)] "Card Verification Results (CVR): New card" "";
    If [(5, 0x08)] "Card Verification Results (CVR): Issuer Authentication failure on last online transaction" "";
    If [(5, 0x04)] "Card Verification Results (CVR): Issuer Authentication not performed after online authorization" "";
    If [(5, 0x02)] "Card Verification Results (CVR): Application blocked by card because PIN Try Limit exceeded" "";
    If [(5, 0x01)] "Card Verification Results (CVR): Offline static data authentication failed on last transaction" "";
    Nm 0xF0 6 0xF0 4 "Card Verification Results (CVR): Script Counter is " p_dec "";
    If [(6, 0x08)] "Card Verification Results (CVR): Issuer Script processing failed" "";
    If [(6, 0x04)] "Card Verification Results (CVR): Offline dynamic data authentication failed on last transaction" "";
    If [(6, 0x02)] "Card Verification Results (CVR): Offline dynamic data authentication performed" "";
    If [(6, 0x01)] "Card Verification Results (CVR): PIN verification command not received for a PIN-Expecting card" "" ].
Definition iad_vsdc_013 (iad : list Z) : out (Z * list (list Z)) :=
  if Zlen iad <? 7 then Ret (-1, []) else
  let* a := rd iad 0 in
  if negb (a =? 0x06) then Ret (-1, []) else
  let* l := rd iad 3 in
  if negb (l =? 3) then Ret (-1, []) else
  let* c := rd iad 2 in
  let f := Z.shiftr (Z.land c 0xF0) 4 in
  if negb (f =? 0) && negb (f =? 1) && negb (f =? 3) then Ret (-1, []) else
  let* t := run iad iad_vsdc_013_prog in Ret (0, t).

(** emv_strings.c:4372-4595 [emv_iad_vsdc_2_4_append_string_list]. *)
Definition iad_vsdc_24_prog : list stmt :=
  [ Nm 0 1 0xFF 0 "Cryptogram Version Number (CVN): " (fun x => p_02X x ++ lit " (CVN'" ++ p_02X x) "')";
    Nm 0 2 0xFF 0 "Derivation Key Index (DKI): " p_02X "";
    If [(3, 0xFF)] "" "No CDCVM";
    Sw 3 0xF0 [(0x10, "Card Verification Results (CVR): Visa Mobile Payment Application (VMPA)");
       (0x20, "Card Verification Results (CVR): MG");
       (0x30, "Card Verification Results (CVR): Co-residing SE app");
       (0x40, "Card Verification Results (CVR): TEE app");
       (0x50, "Card Verification Results (CVR): Mobile Application");
       (0x60, "Card Verification Results (CVR): Terminal");
       (0x70, "Card Verification Results (CVR): Verified in the cloud");
       (0x80, "Card Verification Results (CVR): Verified by the mobile device OS")] "";
    Sw 3 0x0F [(0x01, "Card Verification Results (CVR): Passcode");
       (0x02, "Card Verification Results (CVR): Finger biometric");
       (0x03, "Card Verification Results (CVR): Mobile device pattern");
       (0x04, "Card Verification Results (CVR): Facial biometric");
       (0x05, "Card Verification Results (CVR): Iris biometric");
       (0x06, "Card Verification Results (CVR): Voice biometric");
       (0x07, "Card Verification Results (CVR): Palm biometric");
       (0x0D, "Card Verification Results (CVR): Signature");
       (0x0E, "Card Verification Results (CVR): Online PIN")] "";
    Sw 4 0xC0 [(0x00, "Card Verification Results (CVR): Second GENERATE AC returned AAC");
       (0x40, "Card Verification Results (CVR): Second GENERATE AC returned TC");
       (0x80, "Card Verification Results (CVR): Second GENERATE AC Not Requested");
       (0xC0, "Card Verification Results (CVR): Second GENERATE AC RFU")] "";
    Sw 4 0x30 [(0x00, "Card Verification Results (CVR): GPO returned AAC");
       (0x10, "Card Verification Results (CVR): GPO returned TC");
       (0x20, "Card Verification Results (CVR): GPO returned ARQC");
       (0x30, "Card Verification Results (CVR): GPO RFU")] "";
    If [(4, 0x08)] "Card Verification Results (CVR): Issuer Authentication performed and failed" "";
    If [(4, 0x04)] "Card Verification Results (CVR): CDCVM successfully performed" "";
    If [(4, 0x02)] "Card Verification Results (CVR): RFU" "";
    If [(4, 0x01)] "Card Verification Results (CVR): Unable to go online" "";
    If [(5, 0x80)] "Card Verification Results (CVR): Last online transaction not completed" "";
    If [(5, 0x40)] "Card Verification Results (CVR): PIN Try Limit exceeded" "";
    If [(5, 0x20)] "Card Verification Results (CVR): Exceeded velocity checking counters" "";
    If [(5, 0x10)] "Card Verification Results (CVR): New card" "";
    If [(5, 0x08)] "Card Verification Results (CVR): Issuer Authentication failure on last online transaction" "";
    If [(5, 0x04)] "Card Verification Results (CVR): Issuer Authentication not performed after online authorization" "";
    If [(5, 0x02)] "Card Verification Results (CVR): Application blocked by card because PIN Try Limit exceeded" "";
    If [(5, 0x01)] "Card Verification Results (CVR): Offline static data authentication failed on last transaction" "";
    Nm 0xF0 6 0xF0 4 "Card Verification Results (CVR): Script Counter is " p_dec "";
    If [(6, 0x08)] "Card Verification Results (CVR): Issuer Script processing failed" "";
    If [(6, 0x04)] "Card Verification Results (CVR): Offline dynamic data authentication failed on last transaction" "";
    If [(6, 0x02)] "Card Verification Results (CVR): Offline dynamic data authentication performed" "";
    If [(6, 0x01)] "Card Verification Results (CVR): PIN verification command not received for a PIN-Expecting card" "";
    If [(7, 0x80)] "Card Verification Results (CVR): Consumer Device is not in debug mode" "";
    If [(7, 0x40)] "Card Verification Results (CVR): Consumer Device is not a rooted device" "";
    If [(7, 0x20)] "Card Verification Results (CVR): Mobile Application is not hooked" "";
    If [(7, 0x10)] "Card Verification Results (CVR): Mobile Application integrity is intact" "";
    If [(7, 0x08)] "Card Verification Results (CVR): Consumer Device has data connectivity" "";
    If [(7, 0x04)] "Card Verification Results (CVR): Consumer Device is genuine" "";
    If [(7, 0x02)] "Card Verification Results (CVR): CDCVM successfully performed" "";
    If [(7, 0x01)] "Card Verification Results (CVR): Secure Messaging uses EMV Session key-based derivation" "" ].
Definition iad_vsdc_24 (iad : list Z) : out (Z * list (list Z)) :=
  if negb (Zlen iad =? 32) then Ret (-1, []) else
  let* a := rd iad 0 in
  if negb (a =? 0x1F) then Ret (-1, []) else
  let* o := rd iad 8 in
  if negb (Z.land o 0xF0 =? 0) then Ret (-1, []) else
  let* c := rd iad 1 in
  let f := Z.shiftr (Z.land c 0xF0) 4 in
  if negb (f =? 2) && negb (f =? 4) then Ret (-1, []) else
  let* t := run iad iad_vsdc_24_prog in Ret (0, t).

(** emv_strings.c:4597-4711 [emv_iad_get_string_list]. *)
Definition iad_list (iad str : list Z) : out (Z * list Z) :=
  if Zlen iad =? 0 then Ret (-1, str)
  else if Zlen str =? 0 then Ret (0, str)
  else if Zlen iad >? 32 then Ret (1, str)
  else
    let* fmt := iad_get_format iad in
    let go (head : list (list Z)) (tail : out (Z * list (list Z))) : out (Z * list Z) :=
      let* (r, t) := tail in emit r (head ++ t) str in
    let vsdc := lit "Application: Visa Smart Debit/Credit (VSDC)" in
    if fmt =? IAD_INVALID then emit (-1) [lit "Invalid IAD format"] str
    else if fmt =? IAD_CCD then go [lit "Application: CCD-Compliant"; lit "IAD Format: CCD Version 4.1"] (iad_ccd iad)
    else if fmt =? IAD_MCHIP4 then go [lit "Application: M/Chip 4"] (iad_mchip iad)
    else if fmt =? IAD_MCHIP_ADVANCE then go [lit "Application: M/Chip Advance"] (iad_mchip iad)
    else if fmt =? IAD_VSDC_0 then go [vsdc; lit "IAD Format: 0"] (iad_vsdc_013 iad)
    else if fmt =? IAD_VSDC_1 then go [vsdc; lit "IAD Format: 1"] (iad_vsdc_013 iad)
    else if fmt =? IAD_VSDC_2 then go [vsdc; lit "IAD Format: 2"] (iad_vsdc_24 iad)
    else if fmt =? IAD_VSDC_3 then go [vsdc; lit "IAD Format: 3"] (iad_vsdc_013 iad)
    else if fmt =? IAD_VSDC_4 then go [vsdc; lit "IAD Format: 4"] (iad_vsdc_24 iad)
    else emit 0 [lit "Unknown IAD format"] str.

(** emv_strings.c:5779-5850 [emv_csu_append_string_list]. *)
Definition csu_prog : list stmt :=
  [ If [(0, 0x80)] "Card Status Update (CSU): Proprietary Authentication Data Included" "";
    Nm 0x0F 0 0x0F 0 "Card Status Update (CSU): PIN Try Counter = " p_dec "";
    If [(1, 0x80)] "Card Status Update (CSU): Issuer Approves Online Transaction" "";
    If [(1, 0x40)] "Card Status Update (CSU): Card Block" "";
    If [(1, 0x20)] "Card Status Update (CSU): Application Block" "";
    If [(1, 0x10)] "Card Status Update (CSU): Update PIN Try Counter" "";
    If [(1, 0x08)] "Card Status Update (CSU): Set Go Online on Next Transaction" "";
    If [(1, 0x04)] "Card Status Update (CSU): CSU Created by Proxy for the Issuer" "";
    Sw 1 0x03 [(0x00, "Card Status Update (CSU): Do Not Update Offline Counters")] "";
    Sw 1 0x03 [(0x01, "ard Status Update (CSU): Set Offline Counters to Upper Offline Limits")] "";
    Sw 1 0x03 [(0x02, "Card Status Update (CSU): Reset Offline Counters to Zero")] "";
    Sw 1 0x03 [(0x03, "Card Status Update (CSU): Add Transaction to Offline Counter")] "";
    Nm 0xFF 3 0xFF 0 "Card Status Update (CSU): Issuer Discretionary 0x" p_02X "";
    If [(0, 0x70); (2, 0xFF)] "Card Status Update (CSU): RFU" "" ].

(** emv_strings.c:5852-5939 [emv_issuer_auth_data_get_string_list].  [junk] is the content of the
    local array arc_str before use.  csu_len is 4, so emv_csu_append_string_list gives 0. *)
Definition issuer_auth_list (junk : list Z) (iad str : list Z) : out (Z * list Z) :=
  if Zlen iad =? 0 then Ret (-1, str)
  else if Zlen str =? 0 then Ret (0, str)
  else if (Zlen iad <? 8) || (Zlen iad >? 32) then Ret (1, str)
  else
    let arpc (n : nat) : out (list Z) := let* x := sub iad 0 n in Ret (lit "Authorisation Response Cryptogram (ARPC): " ++ flat_map p_02X x) in
    let csu : out (Z * list Z) :=
      let* a := rd iad 4 in
      let* c := rd iad 6 in
      if (Z.land a 0x70 =? 0) && (Z.land c 0xFF =? 0) then
        let* h := arpc 4%nat in
        let* d := sub iad 4 4 in
        let* t := run d csu_prog in
        let* x :=
          (if Zlen iad >? 8 then
             if negb (Z.land a 0x80 =? 0) then Ret [lit "Proprietary Authentication Data: " ++ p_dec (Zlen iad - 8) ++ lit " bytes"]
             else if Zlen iad =? 10 then
               let* y := sub iad 8 2 in
               let* (r, s) := format_an_get_string y junk in
               if r =? 0 then let* s := p_s s in Ret [lit "Authorisation Response Code: " ++ s] else Ret []
             else Ret []
           else Ret []) in
        emit 0 (h :: t ++ x) str
      else emit 0 [] str in
    if Zlen iad =? 10 then
      let* y := sub iad 8 2 in
      let* (r, s) := format_an_get_string y junk in
      if r =? 0 then let* h := arpc 8%nat in let* s := p_s s in emit 0 [h; lit "Authorisation Response Code: " ++ s] str
      else
        let* a := rd iad 8 in
        if Z.land a 0xF0 =? 0 then
          let* h := arpc 8%nat in let* b := rd iad 9 in
          emit 0 [h; lit "M/Chip ARPC Response Code: " ++ p_02X a ++ p_02X b] str
        else csu
    else csu.

(** emv_strings.c:2052-2119 [emv_term_type_get_string_list]. *)
Definition term_type_prog : list stmt :=
  [ Sw 0 0x30 [(0x10, "Operational Control: Financial Institution"); (0x20, "Operational Control: Merchant");
       (0x30, "Operational Control: Cardholder")] "Operational Control: Unknown";
    Sw 0 0x07 [(0x01, "Environment: Attended, online only"); (0x02, "Environment: Attended, offline with online capability");
       (0x03, "Environment: Attended, offline only"); (0x04, "Environment: Unattended, online only");
       (0x05, "Environment: Unattended, offline with online capability"); (0x06, "Environment: Unattended, offline only")]
       "Environment: Unknown" ].
Definition term_type_list (b : Z) (str : list Z) : out (Z * list Z) :=
  if (b =? 0) || (Zlen str =? 0) then Ret (-1, str) else let* t := run [b] term_type_prog in emit 0 t str.

(** emv_strings.c:3772-3849 [emv_cid_get_string_list]. *)
Definition cid_prog_a : list stmt :=
  [ Sw 0 0xC0 [(0x00, "Application Cryptogram (AC) type: Application Authentication Cryptogram (AAC)");
       (0x40, "Application Cryptogram (AC) type: Transaction Certificate (TC)");
       (0x80, "Application Cryptogram (AC) type: Authorisation Request Cryptogram (ARQC)")] "Application Cryptogram (AC) type: RFU";
    Nm 0x30 0 0x30 0 "Payment System-specific cryptogram: 0x" p_02X "" ].
Definition cid_prog_b : list stmt :=
  [ Sw 0 0x07 [(0x00, ""); (0x01, "Advice: Service not allowed"); (0x02, "Advice: PIN Try Limit exceeded");
       (0x03, "Advice: Issuer authentication failed")] "Advice: RFU" ].
Definition cid_list (b : Z) (str : list Z) : out (Z * list Z) :=
  if Zlen str =? 0 then Ret (-1, str) else
  let* x := run [b] cid_prog_a in
  let y := if negb (Z.land b 0x08 =? 0) then [lit "Advice required"]
           else if negb (Z.land b 0x07 =? 0) then [lit "No advice required"] else [] in
  let* z := run [b] cid_prog_b in
  emit 0 (x ++ y ++ z) str.

(** emv_strings.c:2700-2774 [emv_afl_get_string_list].  The fuel is one more than the number of octets. *)
Definition afl_text (e : afl_entry) : list Z :=
  let base := lit "SFI " ++ p_dec (a_sfi e) ++ lit ", record " ++ p_dec (a_first e) in
  if a_first e =? a_last e then
    if negb (a_oda e =? 0) then base ++ lit ", " ++ p_dec (a_oda e) ++ lit " record used for offline data authentication" else base
  else
    let base := base ++ lit " to " ++ p_dec (a_last e) in
    if negb (a_oda e =? 0) then
      base ++ lit ", " ++ p_dec (a_oda e) ++ lit " record" ++ (if a_oda e >? 1 then lit "s" else []) ++ lit " used for offline data authentication"
    else base.
Fixpoint afl_texts (fuel : nat) (itr : list Z) : out (Z * list (list Z)) :=
  match fuel with
  | O => NoFuel
  | Datatypes.S fuel =>
    let* (r, e, itr) := afl_itr_next itr in
    match e with
    | Some e => if r >? 0 then let* (r, t) := afl_texts fuel itr in Ret (r, afl_text e :: t) else Ret (r, [])
    | None => Ret (r, [])
    end
  end.
Definition afl_list (afl str : list Z) : out (Z * list Z) :=
  if (Zlen afl =? 0) || (Zlen str =? 0) then Ret (-1, str) else
  match afl_itr_init afl with
  | (_, Some itr) =>
    let* (r, t) := afl_texts (Datatypes.S (length afl)) itr in
    let* (_, new) := emit 0 t str in
    if r <? 0 then let* new := wr new 0 0 in Ret (- r, new) else Ret (0, new)
  | (r, None) => Ret (r, str)
  end.

(** emv_strings.c:2562-2628 [emv_asrpd_get_string_list]. *)
Fixpoint asrpd_texts (fuel : nat) (v : list Z) : out (Z * list (list Z)) :=
  match fuel with
  | O => NoFuel
  | Datatypes.S fuel =>
    if Zlen v =? 0 then Ret (0, []) else
    if Zlen v <? 3 then Ret (2, []) else
    let* a := rd v 0 in
    let* b := rd v 1 in
    let id := Z.shiftl a 8 + b in
    let t := if id =? 0x0001 then lit "European Cards Stakeholders Group"
             else if id =? 0x0003 then lit "Technical Cooperation ep2 Association" else lit "Unknown ASRPD identifier" in
    let* l := rd v 2 in
    let n := 2 + 1 + l in
    if n >? Zlen v then Ret (3, [t]) else
    let* (r, ts) := asrpd_texts fuel (skipn (Z.to_nat n) v) in Ret (r, t :: ts)
  end.
Definition asrpd_list (v str : list Z) : out (Z * list Z) :=
  if Zlen v =? 0 then Ret (-1, str)
  else if Zlen str =? 0 then Ret (0, str)
  else if Zlen v <? 3 then Ret (1, str)
  else let* (r, t) := asrpd_texts (Datatypes.S (length v)) v in emit r t str.

(** emv_strings.c:3196-3285 [emv_cvm_code_get_string]. *)
Definition cvm_codes : list (Z * string) :=
  [ (0x00, "Fail CVM processing");
    (0x01, "Plaintext PIN verification performed by ICC");
    (0x02, "Enciphered PIN verified online");
    (0x03, "Plaintext PIN verification performed by ICC and signature");
    (0x04, "Enciphered PIN verification performed by ICC");
    (0x05, "Enciphered PIN verification performed by ICC and signature");
    (0x06, "Facial biometric verified offline (by ICC)");
    (0x07, "Facial biometric verified online");
    (0x08, "Finger biometric verified offline (by ICC)");
    (0x09, "Finger biometric verified online");
    (0x0A, "Palm biometric verified offline (by ICC)");
    (0x0B, "Palm biometric verified online");
    (0x0C, "Iris biometric verified offline (by ICC)");
    (0x0D, "Iris biometric verified online");
    (0x0E, "Voice biometric verified offline (by ICC)");
    (0x0F, "Voice biometric verified online");
    (0x1E, "Signature (paper)");
    (0x1F, "No CVM required");
    (0x3F, "Invalid CV Rule") ].
Definition cvm_code_text (b : Z) : list Z := lit (pick (Z.land b 0x3F) cvm_codes "Unknown CVM").

(** emv_strings.c:3287-3414 [emv_cvm_cond_code_get_string] into an array [buf]. *)
Definition cvm_cond_codes : list (Z * string) :=
  [ (0x00, "Always");
    (0x01, "If unattended cash");
    (0x02, "If not unattended cash and not manual cash and not purchase with cashback");
    (0x03, "If terminal supports the CVM");
    (0x04, "If manual cash");
    (0x05, "If purchase with cashback");
    (0x06, "If transaction is in the application currency and is under X value");
    (0x07, "If transaction is in the application currency and is over X value");
    (0x08, "If transaction is in the application currency and is under Y value");
    (0x09, "If transaction is in the application currency and is over Y value") ].
Definition cvm_cond (b : Z) (amounts : option (Z * Z)) (buf : list Z) : out (list Z) :=
  let plain := say_n buf (lit (pick b cvm_cond_codes "Unknown condition")) in
  match amounts with
  | None => plain
  | Some (x, y) =>
    let say (w : string) (a : Z) : out (list Z) :=
      snprintf buf 0 (length buf) (lit "If transaction is in the application currency and is " ++ lit w ++ p_dec a ++ lit " value") in
    if b =? 0x06 then say "under " x else if b =? 0x07 then say "over " x
    else if b =? 0x08 then say "under " y else if b =? 0x09 then say "over " y else plain
  end.

(** emv_strings.c:3416-3481 [emv_cvm_list_get_string_list].  [junk] is the content of the local
    array cond_str (128 chars) before use. *)
Fixpoint cvm_texts (fuel : nat) (amounts : Z * Z) (junk itr : list Z) : out (Z * list (list Z)) :=
  match fuel with
  | O => NoFuel
  | Datatypes.S fuel =>
    let* (r, e, itr) := cvmlist_itr_next itr in
    match e with
    | Some (cvm, cond) =>
      let* c := cvm_cond cond (Some amounts) junk in
      let* c := p_s c in
      let t := c ++ lit "; " ++ cvm_code_text cvm ++ lit "; " ++
        (if negb (Z.land cvm 0x40 =? 0) then lit "Apply succeeding CV Rule if this CVM is unsuccessful"
         else lit "Fail cardholder verification if this CVM is unsuccessful") in
      let* (r, ts) := cvm_texts fuel amounts junk itr in Ret (r, t :: ts)
    | None => Ret (r, [])
    end
  end.
Definition cvm_list_list (junk l str : list Z) : out (Z * list Z) :=
  if (Zlen l =? 0) || (Zlen str =? 0) then Ret (-1, str) else
  let* (r, x) := cvmlist_itr_init l in
  match x with
  | Some (x, y, itr) => let* (_, t) := cvm_texts (Datatypes.S (length l)) (x, y) junk itr in emit 0 t str
  | None => Ret (r, str)
  end.

(** emv_strings.c:3483-3558 [emv_cvm_results_get_string_list]. *)
Definition cvm_results_list (junk v str : list Z) : out (Z * list Z) :=
  if Zlen v =? 0 then Ret (-1, str)
  else if Zlen str =? 0 then Ret (0, str)
  else if negb (Zlen v =? 3) then Ret (1, str)
  else
    let* a := rd v 0 in
    let t0 := lit "CVM Performed: " ++ (if a =? 0x3F then lit "CVM not performed" else cvm_code_text a) in
    let* b := rd v 1 in
    let* c := cvm_cond b None junk in
    let* c := p_s c in
    let t1 := lit "CVM Condition: " ++ c in
    let* d := rd v 2 in
    let t2 := lit "CVM Result: " ++ (if d =? 0 then lit "Unknown" else if d =? 1 then lit "Failed" else if d =? 2 then lit "Successful" else p_dec d) in
    emit 0 [t0; t1; t2] str.

(** emv_strings.c:5089-5133 [emv_mastercard_device_type_map]. *)
Definition device_types : list (string * string) :=
  [ ("00", "Card");
    ("01", "Mobile Phone or Smartphone with Mobile Network Operator (MNO) controlled removable secure element (SIM or UICC) personalized for use with a mobile phone or smartphone");
    ("02", "Key Fob");
    ("03", "Watch using a contactless chip or a fixed (non-removable) secure element not controlled by the MNO");
    ("04", "Mobile Tag");
    ("05", "Wristband");
    ("06", "Mobile Phone Case or Sleeve");
    ("07", "Mobile phone or smartphone with a fixed (non-removable) secure element controlled by the MNO, for example, code division multiple access (CDMA)");
    ("08", "Removable secure element not controlled by the MNO, for example, memory card personalized for used with a mobile phone or smartphone");
    ("09", "Mobile Phone or smartphone with a fixed (non-removable) secure element not controlled by the MNO");
    ("10", "MNO controlled removable secure element (SIM or UICC) personalized for use with a tablet or e-book");
    ("11", "Tablet or e-book with a fixed (non-removable) secure element controlled by the MNO");
    ("12", "Removable secure element not controlled by the MNO, for example, memory card personalized for use with a tablet or e-book");
    ("13", "Tablet or e-book with fixed (non-removable) secure element not controlled by the MNO");
    ("14", "Mobile phone or smartphone with a payment application running in a host processor");
    ("15", "Tablet or e-book with a payment application running in a host processor");
    ("16", "Mobile phone or smartphone with a payment application running in the Trusted Execution Environment (TEE) of a host processor");
    ("17", "Tablet or e-book with a payment application running in the TEE of a host processor");
    ("18", "Watch with a payment application running in the TEE of a host processor");
    ("19", "Watch with a payment application running in a host processor");
    ("20", "Card");
    ("21", "Phone (Mobile phone)");
    ("22", "Tablet/e-reader (Tablet computer or e-reader)");
    ("23", "Watch/Wristband (Watch or wristband, including a fitness band, smart strap, disposable band, watch add-on, and security/ID band)");
    ("24", "Sticker");
    ("25", "PC (PC or laptop)");
    ("26", "Device Peripheral (Mobile phone case or sleeve)");
    ("27", "Tag (Key fob or mobile tag)");
    ("28", "Jewelry (Ring, bracelet, necklace, and cuff links)");
    ("29", "Fashion Accessory (Handbag, bag charm, and glasses)");
    ("30", "Garment (Dress)");
    ("31", "Domestic Appliance (Refrigerator, washing machine)");
    ("32", "Vehicle (Vehicle, including vehicle attached devices)");
    ("33", "Media/Gaming Device (Media or gaming device, including a set top box, media player, and television)") ].
(** emv_strings.c:5135-5144 [emv_mastercard_device_type_get_string]: strncmp of 2 chars with keys of
    2 chars other than NUL. *)
Fixpoint key_lookup (d : list Z) (l : list (string * string)) : option (list Z) :=
  match l with [] => None | (k, s) :: t => if list_eqb (lit k) d then Some (lit s) else key_lookup d t end.

(** %s of the device type: the two chars up to a NUL. *)
Definition p_s2 (d : list Z) : out (list Z) := p_s (d ++ [0]).
(** emv_strings.c:5146-5353 [emv_mastercard_third_party_data_get_string_list].  [country] is the text
    emv_country_numeric_code_get_string finds for the two octets, if any; it is not modelled. *)
Definition tpd_fleet : list stmt :=
  [ Sw 2 0xFF [(0x02, "Product Restriction Code: Good for fuel only"); (0x01, "Product Restriction Code: Good for fuel and other products");
       (0x00, "")] "Product Restriction Code: RFU";
    If [(3, 0x08)] "Product Type Code: Prompt for Odometer" "";
    If [(3, 0x04)] "Product Type Code: Prompt for Driver Number" "";
    If [(3, 0x02)] "Product Type Code: Prompt for Vehicle Number" "";
    If [(3, 0x01)] "Product Type Code: Prompt for ID Number" "";
    If [(3, 0xF0)] "Product Type Code: RFU" "";
    Sw 4 0xFF [(0x80, "Card Type: Driver card"); (0x40, "Card Type: Vehicle card"); (0x00, "")] "Card Type: RFU" ].
Definition tpd_transit : list stmt :=
  [ If [(2, 0x80)] "Transit: Deferred Authorization Not Supported" "";
    If [(2, 0x7F)] "Transit: RFU" "";
    Sw 3 0xFF
      [(1, "Concession Code: 01 - Senior Citizen, potentially eligible for senior citizen discounts");
       (2, "Concession Code: 02 - Student, potentially eligible for student-based discounts");
       (3, "Concession Code: 03 - Active military and veterans, potentially eligible for service member discounts");
       (4, "Concession Code: 04 - Low Income household, potentially eligible for means-based discounts");
       (5, "Concession Code: 05 - Disability, eligible for paratransit and other disability discounts");
       (6, "Concession Code: 06 - Minor Child, potentially enables free travel for under 16 and young kids");
       (7, "Concession Code: 07 - Transit Staff, potentially enables free travel for transit staff");
       (8, "Concession Code: 08 - City/Government/Preferred Employees, potentially enables discounted travel for federal and preferred employees")]
      "Concession Code: RFU" ].
Definition tpd_texts (country : list Z -> option (list Z)) (v : list Z) : out (Z * list (list Z)) :=
  let* cc := sub v 0 2 in
  let t0 := lit "Country: " ++ match country cc with Some s => s | None => lit "Unknown" end in
  let* a := rd v 2 in
  let* b := rd v 3 in
  let id := Z.shiftl a 8 + b in
  let ext := (id =? 0x0003) || (id =? 0x8003) in
  let t1 := if id =? 0 then lit "Unique Identifier: Proprietary Data not used"
            else if ext then lit "Unique Identifier: Mastercard Product Extension" else lit "Unique Identifier: Unknown" in
  let* (t2, min, o) :=
    (if Z.land id 0x8000 =? 0 then
       let* d := sub v 4 2 in
       let* s := p_s2 d in
       Ret ([lit "Device Type: " ++ s ++ match key_lookup d device_types with Some x => lit " - " ++ x | None => [] end], 7, 6%nat)
     else Ret ([], 5, 4%nat)) in
  let t := t0 :: t1 :: t2 in
  if Zlen v <? min then Ret (1, t) else
  let p := skipn o v in
  let rem := Zlen v - Z.of_nat o in
  let* bad := (if id =? 0 then let* x := rd p 0 in Ret (negb (x =? 0) || negb (rem =? 1)) else Ret (ext && (rem <? 2))) in
  if bad then Ret (1, t ++ [lit "Invalid Proprietary Data"]) else
  if ext then
    let* x := rd p 0 in
    let* y := rd p 1 in
    let product := Z.shiftl x 8 + y in
    if product =? 0x0001 then
      let t := t ++ [lit "Product Identifier: Fleet Card"] in
      if negb (rem =? 8) then Ret (1, t ++ [lit "Invalid Proprietary Data length"])
      else let* z := run p tpd_fleet in Ret (0, t ++ z)
    else if product =? 0x0002 then
      let t := t ++ [lit "Product Identifier: Transit"] in
      if negb (rem =? 5) then Ret (1, t ++ [lit "Invalid Proprietary Data length"])
      else let* z := run p tpd_transit in Ret (0, t ++ z)
    else Ret (0, t ++ [lit "Product Identifier: Unknown"])
  else
    let* x := rd p 0 in
    Ret (0, t ++ (if x =? 0 then [lit "Proprietary Data: Not used"] else [])).
Definition tpd_list (country : list Z -> option (list Z)) (v str : list Z) : out (Z * list Z) :=
  if Zlen v =? 0 then Ret (-1, str)
  else if Zlen str =? 0 then Ret (0, str)
  else if (Zlen v <? 5) || (Zlen v >? 32) then Ret (1, str)
  else let* (r, t) := tpd_texts country v in emit r t str.

(** emv_strings.c:5547-5705 [emv_auth_response_code_map]. *)
Definition arc_map : list (string * string) :=
  [ ("00", "Approved or completed successfully");
    ("01", "Refer to card issuer");
    ("02", "Refer to card issuer's special conditions");
    ("03", "Invalid merchant");
    ("04", "Pick-up");
    ("05", "Do not honour");
    ("06", "Error");
    ("07", "Pick-up card, special condition");
    ("08", "Honour with identification");
    ("09", "Request in progress");
    ("0A", "No reason to decline");
    ("0B", "Approved but fees disputed");
    ("0C", "Approved, unable to process online");
    ("0D", "Approved, transaction processed offline");
    ("0E", "Approved, transaction processed offline after referral");
    ("10", "Approved for partial amount");
    ("11", "Approved (VIP)");
    ("12", "Invalid transaction");
    ("13", "Invalid amount");
    ("14", "Invalid card/cardholder number");
    ("15", "No such issuer (invalid IIN)");
    ("16", "Approved, update track 3");
    ("17", "Customer cancellation");
    ("18", "Customer dispute");
    ("19", "Re-enter transaction");
    ("1A", "Additional consumer authentication required");
    ("1B", "Cashback not allowed");
    ("1C", "Cashback amount exceeded");
    ("1D", "Surcharge amount not permitted for card product");
    ("1E", "Surcharge not permitted by selected network");
    ("1F", "Exceeds pre-authorized amount");
    ("1G", "Currency unacceptable to card issuer");
    ("1H", "Authorization lifecycle unacceptable");
    ("1I", "Authorization lifecycle has expired");
    ("1J", "Message sequence number error");
    ("1K", "Payment date invalid");
    ("1L", "Stop payment order - Specific pre-authorized payment");
    ("1M", "Stop payment order - All pre-authorized payments for merchant");
    ("1N", "Stop payment order - Account");
    ("1O", "Recurring data error");
    ("1P", "Scheduled transactions exist");
    ("1W", "Cheque already posted");
    ("1X", "Declined, unable to process offline");
    ("1Y", "Declined, transaction processed offline");
    ("1Z", "Declined, transaction processed offline after referral");
    ("20", "Invalid response");
    ("21", "No action taken");
    ("22", "Suspected malfunction");
    ("23", "Unacceptable transaction fee");
    ("24", "File update not supported by receiver");
    ("25", "Unable to locate record on file");
    ("26", "Duplicate file update record, old record replaced");
    ("27", "File update field edit error");
    ("28", "File update file locked out");
    ("29", "File update not successful");
    ("2A", "Duplicate, new record rejected");
    ("2B", "Unknown file");
    ("2C", "Invalid security code");
    ("2D", "Database error");
    ("2E", "Update not allowed");
    ("2F", "Not authorized and fees disputed");
    ("30", "Format error");
    ("31", "Acquirer bank not supported");
    ("32", "Completed partially");
    ("33", "Expired card");
    ("34", "Suspected fraud");
    ("35", "Card acceptor contact acquirer");
    ("36", "Restricted card");
    ("37", "Card acceptor call acquirer security");
    ("38", "Allowable PIN tries exceeded");
    ("39", "No credit account");
    ("3A", "Suspected counterfeit card, pick up card");
    ("3B", "Daily withdrawal uses exceeded");
    ("3C", "Daily withdrawal amount exceeded");
    ("40", "Requested function not supported");
    ("41", "Lost card, pick-up");
    ("42", "No universal account");
    ("43", "Stolen card, pick-up");
    ("44", "No investment account");
    ("45", "No account of type requested");
    ("46", "Closed account, or restricted for closing");
    ("47", "From account bad status");
    ("48", "To account bad status");
    ("49", "Bad debt");
    ("4A", "Card not effective");
    ("4B", "Closed savings account, or restricted for closing");
    ("4C", "Closed credit account or restricted for closing");
    ("4D", "Closed credit facility cheque account or restricted for closing");
    ("4E", "Closed cheque account or restricted for closing");
    ("51", "Not sufficient funds");
    ("52", "No chequing account");
    ("53", "No savings account");
    ("54", "Expired card");
    ("55", "Incorrect personal identification number");
    ("56", "No card record");
    ("57", "Transaction not permitted to cardholder");
    ("58", "Transaction not permitted to terminal");
    ("59", "Suspected fraud");
    ("5A", "Suspected counterfeit card");
    ("5B", "Transaction does not fulfill Anti-Money Laundering requirements");
    ("5C", "Transaction not supported by the card issuer");
    ("60", "Card acceptor contact acquirer");
    ("61", "Exceeds withdrawal amount limit");
    ("62", "Restricted card");
    ("63", "Security violation");
    ("64", "Original amount incorrect");
    ("65", "Exceeds withdrawal frequency limit");
    ("66", "Card acceptor call acquirer's security department");
    ("67", "Hard capture (requires that card be picked up at ATM)");
    ("68", "Response received too late");
    ("6P", "Verification data failed");
    ("6Q", "No communication keys available for use");
    ("6R", "MAC key sync error");
    ("6S", "MAC incorrect");
    ("6T", "Security software/hardware error - try again");
    ("6U", "Security software/hardware error - do not retry");
    ("6V", "Encryption key sync error");
    ("6W", "Key verification failed. Key check value does not match");
    ("6X", "Key sync error");
    ("6Y", "Missing required data to verify/process PIN");
    ("6Z", "Invalid PIN block");
    ("70", "PIN data required");
    ("71", "New PIN invalid");
    ("72", "PIN change required");
    ("73", "PIN is not allowed for transaction");
    ("74", "PIN length error");
    ("75", "Allowable number of PIN tries exceeded");
    ("8A", "Reconciled, in balance");
    ("8B", "Amount not reconciled, totals provided");
    ("8C", "Totals not available");
    ("8D", "Not reconciled, totals provided");
    ("8E", "Ineligible to receive financial position information");
    ("8F", "Reconciliation cutover or checkpoint error");
    ("8G", "Advice acknowledged, no financial liability accepted");
    ("8H", "Advice acknowledged, financial liability accepted");
    ("8I", "Message number out of sequence");
    ("8W", "Perform Stand-In Processing (STIP)");
    ("8X", "Currently unable to perform request; try later");
    ("8Y", "Card issuer signed off");
    ("8Z", "Card issuer timed out");
    ("90", "Cutoff is in process (switch ending a day's business and starting the next. Transaction can be sent again in a few minutes)");
    ("91", "Issuer or switch is unavailable or inoperative");
    ("92", "Financial institution or intermediate network facility cannot be found for routing");
    ("93", "Transaction cannot be completed. Violation of law");
    ("94", "Duplicate transmission");
    ("95", "Reconcile error");
    ("96", "System malfunction");
    ("9A", "Violation of business arrangement");
    ("9B", "No matching original transaction");
    ("9C", "Original transaction was declined");
    ("9D", "Bank not found");
    ("9E", "Bank not effective");
    ("9F", "Information not on file") ].
(** emv_strings.c:5718-5777 [emv_auth_response_code_get_string].  snprintf does not fail. *)
Definition arc_string (v str : list Z) : out (Z * list Z) :=
  if Zlen v =? 0 then Ret (-1, str)
  else if Zlen str =? 0 then Ret (0, str)
  else
    let* str := wr str 0 0 in
    if Zlen str <? 3 then Ret (-2, str)
    else if negb (Zlen v =? 2) then Ret (1, str)
    else
      let* (r, str) := format_an_get_string v str in
      if negb (r =? 0) then let* str := wr str 0 0 in Ret (r, str)
      else if Zlen str <? 10 then Ret (0, str)
      else match key_lookup v arc_map with
           | None => Ret (0, str)
           | Some d => let* str := snprintf str 2 (length str - 2) (lit " - " ++ d) in Ret (0, str)
           end.

(** Functions that copy one text for an octet: strncpy(str, text, str_len); str[str_len - 1] = 0; return 0. *)
Definition octet_string (m : Z) (cases : list (Z * string)) (other : string) (b : Z) (str : list Z) : out (Z * list Z) :=
  if Zlen str =? 0 then Ret (0, str) else
  match pick (Z.land b m) cases other with
  | EmptyString => Ret (1, str)
  | s => let* str := say_n str (lit s) in Ret (0, str)
  end.
(** emv_strings.c:2216-2300 [emv_pos_entry_mode_get_string]. *)
Definition pos_entry_modes : list (Z * string) :=
  [ (0x00, "Unknown");
    (0x01, "Manual PAN entry");
    (0x02, "Magnetic stripe");
    (0x03, "Optical Code");
    (0x04, "OCR");
    (0x05, "Integrated circuit card (ICC). CVV can be checked.");
    (0x07, "Auto entry via contactless EMV");
    (0x10, "Merchant has Cardholder Credentials on File");
    (0x80, "Fallback from integrated circuit card (ICC) to magnetic stripe");
    (0x90, "Magnetic stripe as read from track 2. CVV can be checked.");
    (0x91, "Auto entry via contactless magnetic stripe");
    (0x95, "Integrated circuit card (ICC). CVV may not be checked.");
    (0x99, "Same as original transaction") ].
Definition pos_entry_string := octet_string 0xFF pos_entry_modes "".
(** emv_strings.c:1908-1951 [emv_transaction_type_get_string]. *)
Definition transaction_types : list (Z * string) :=
  [ (0x00, "Goods and services"); (0x01, "Cash"); (0x09, "Cashback"); (0x20, "Refund"); (0x30, "Inquiry") ].
Definition transaction_type_string := octet_string 0xFF transaction_types "".

(** emv_strings.c:3157-3194 [emv_account_type_get_string]. *)
Definition account_types : list (Z * string) :=
  [ (0x00, "Default"); (0x10, "Savings"); (0x20, "Cheque/Debit"); (0x30, "Credit") ].
Definition account_type_string := octet_string 0xFF account_types "".

(** emv_strings.c:5038-5087 [emv_amex_cl_reader_caps_get_string]; strncpy(str, text, str_len - 1) here. *)
Definition amex_caps : list (Z * string) :=
  [ (0x00, "Deprecated"); (0x40, "Mag-stripe CVM Not Required"); (0x48, "Mag-stripe CVM Required");
    (0x80, "Deprecated - EMV and Mag-stripe"); (0xC0, "EMV and Mag-stripe CVM Not Required"); (0xC8, "EMV and Mag-stripe CVM Required") ].
Definition amex_caps_string (b : Z) (str : list Z) : out (Z * list Z) :=
  if Zlen str =? 0 then Ret (0, str) else
  let* str := strncpy str (length str - 1) (lit (pick (Z.land b 0xC8) amex_caps "Not Available for Use")) in
  let* str := wr str (length str - 1) 0 in Ret (0, str).
