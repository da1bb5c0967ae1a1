(** Specification of the descriptions of bit fields, written from the tables of the
    specifications named below: octets are numbered from 1 and bits from 8 (most significant)
    to 1, as in those tables. *)
From Coq Require Import String.
From Verif Require Import Base StrModel TlvSpec BerSpec FieldsModel FieldsSpec StrSpec CapduSpec.
Open Scope string_scope.
Open Scope Z_scope.
Open Scope list_scope.

(** Octet [n] of a field, one of its bits, and the number in its bits [hi] to [lo]. *)
Definition octet (v : list Z) (n : Z) : Z := nth (Z.to_nat (n - 1)) v 0.
Definition bit (b k : Z) : bool := Z.odd (b / 2 ^ (k - 1)).
Definition range (b hi lo : Z) : Z := b / 2 ^ (lo - 1) mod 2 ^ (hi - lo + 1).

(** The parts of a field and their texts; "" is no text.
    [Oct n ts]: one text for each set bit of octet n, bits 8 to 1.
    [Any [(n,bits);...] yes no]: yes if any of the bits is set, no if none is.
    [Val n hi lo [(x,t);...] other]: the text for the number in bits hi to lo.
    [Num n hi lo always pre f post]: the number itself, unless it is 0 and always is false. *)
Inductive row :=
| Oct (n : Z) (ts : list string)
| Any (l : list (Z * list Z)) (yes no : string)
| Val (n hi lo : Z) (cases : list (Z * string)) (other : string)
| Num (n hi lo : Z) (always : bool) (pre : string) (f : Z -> list Z) (post : string).

Definition said (s : string) : list (list Z) := if String.eqb s "" then [] else [lit s].
Fixpoint bits_from (k : Z) (b : Z) (ts : list string) : list (list Z) :=
  match ts with [] => [] | t :: ts => (if bit b k then said t else []) ++ bits_from (k - 1) b ts end.
Fixpoint chosen (x : Z) (cases : list (Z * string)) (other : string) : string :=
  match cases with [] => other | (k, s) :: t => if x =? k then s else chosen x t other end.
Definition row_texts (v : list Z) (r : row) : list (list Z) :=
  match r with
  | Oct n ts => bits_from 8 (octet v n) ts
  | Any l yes no => said (if existsb (fun x => existsb (bit (octet v (fst x))) (snd x)) l then yes else no)
  | Val n hi lo cases other => said (chosen (range (octet v n) hi lo) cases other)
  | Num n hi lo always pre f post =>
    let x := range (octet v n) hi lo in
    if always || negb (x =? 0) then [lit pre ++ f x ++ lit post] else []
  end.
Definition table_texts (t : list row) (v : list Z) : list (list Z) := flat_map (row_texts v) t.

(** The list of [texts] is in the buffer, one per line: all of it if it fits, else cut where the
    buffer ends.  With no texts, or fewer than three chars, nothing is written. *)
Definition in_lines (str new : list Z) (texts : list (list Z)) : Prop :=
  exists c, cut (length str) texts c /\
    ((length (lines texts) < length str)%nat -> c = lines texts) /\
    (texts <> [] -> (3 <= length str)%nat -> text_in str new c) /\
    (texts = [] \/ (length str < 3)%nat -> new = str).

(** EMV 4.4 Book 4, Annex A2, tables 25 to 27. *)
Definition T_term_caps : list row :=
  [ Any [(1, [8;7;6;5;4;3;2;1])] "" "Card Data Input Capability: None";
    Oct 1 ["Card Data Input Capability: Manual key entry"; "Card Data Input Capability: Magnetic stripe";
           "Card Data Input Capability: IC with contacts"; ""; ""; ""; ""; ""];
    Any [(1, [5;4;3;2;1])] "Card Data Input Capability: RFU" "";
    Any [(2, [8;7;6;5;4;3;2;1])] "" "CVM Capability: None";
    Oct 2 ["CVM Capability: Plaintext PIN for ICC verification"; "CVM Capability: Enciphered PIN for online verification";
           "CVM Capability: Signature"; "CVM Capability: Enciphered PIN for offline verification (RSA ODE)";
           "CVM Capability: No CVM required"; "CVM Capability: Online Biometric"; "CVM Capability: Offline Biometric";
           "CVM Capability: Enciphered PIN for offline verification (ECC ODE)"];
    Any [(3, [8;7;6;5;4;3;2;1])] "" "Security Capability: None";
    Oct 3 ["Security Capability: Static Data Authentication (SDA)"; "Security Capability: Dynamic Data Authentication (DDA)";
           "Security Capability: Card capture"; ""; "Security Capability: Combined DDA/Application Cryptogram Generation (CDA)";
           "Security Capability: Extended Data Authentication (XDA)"; ""; ""];
    Any [(3, [5;2;1])] "Security Capability: RFU" "" ].

(** EMV 4.4 Book 4, Annex A3, tables 28 to 32. *)
Definition T_addl_term_caps : list row :=
  [ Any [(1, [8;7;6;5;4;3;2;1]); (2, [8;7;6;5;4;3;2;1])] "" "Transaction Type Capability: None";
    Oct 1 ["Transaction Type Capability: Cash"; "Transaction Type Capability: Goods"; "Transaction Type Capability: Services";
           "Transaction Type Capability: Cashback"; "Transaction Type Capability: Inquiry"; "Transaction Type Capability: Transfer";
           "Transaction Type Capability: Payment"; "Transaction Type Capability: Administrative"];
    Oct 2 ["Transaction Type Capability: Cash deposit"];
    Any [(2, [7;6;5;4;3;2;1])] "Transaction Type Capability: RFU" "";
    Any [(3, [8;7;6;5;4;3;2;1])] "" "Terminal Data Input Capability: None";
    Oct 3 ["Terminal Data Input Capability: Numeric keys"; "Terminal Data Input Capability: Alphabetic and special characters keys";
           "Terminal Data Input Capability: Command keys"; "Terminal Data Input Capability: Function keys"];
    Any [(3, [4;3;2;1])] "Terminal Data Input Capability: RFU" "";
    Any [(4, [8;7;6;5])] "" "Terminal Data Output Capability: No print, electronic or display output";
    Oct 4 ["Terminal Data Output Capability: Print or electronic, attendant"; "Terminal Data Output Capability: Print or electronic, cardholder";
           "Terminal Data Output Capability: Display, attendant"; "Terminal Data Output Capability: Display cardholder"; ""; "";
           "Terminal Data Output Capability: Code table 10"; "Terminal Data Output Capability: Code table 9"];
    Any [(4, [4;3])] "Terminal Data Output Capability: RFU" "";
    Oct 5 ["Terminal Data Output Capability: Code table 8"; "Terminal Data Output Capability: Code table 7";
           "Terminal Data Output Capability: Code table 6"; "Terminal Data Output Capability: Code table 5";
           "Terminal Data Output Capability: Code table 4"; "Terminal Data Output Capability: Code table 3";
           "Terminal Data Output Capability: Code table 2"; "Terminal Data Output Capability: Code table 1"] ].

(** EMV 4.4 Book 3, Annex C1, table 41; EMV Contactless Book C-2 for the contactless bits. *)
Definition T_aip : list row :=
  [ Oct 1 ["Extended Data Authentication (XDA) is supported"; "Static Data Authentication (SDA) is supported";
           "Dynamic Data Authentication (DDA) is supported"; "Cardholder verification is supported";
           "Terminal risk management is to be performed"; "Issuer authentication is supported";
           "On device cardholder verification is supported"; "Combined DDA/Application Cryptogram Generation (CDA) is supported"];
    Oct 2 ["Contactless EMV mode is supported"; "Mobile phone"; "Contactless transaction"];
    Any [(2, [5;4;3;2])] "RFU" "";
    Any [(2, [1])] "Relay Resistance Protocol (RRP) is supported" "" ].

(** EMV 4.4 Book 3, Annex C2, table 42. *)
Definition T_auc : list row :=
  [ Oct 1 ["Valid for domestic cash transactions"; "Valid for international cash transactions"; "Valid for domestic goods";
           "Valid for international goods"; "Valid for domestic services"; "Valid for international services"; "Valid at ATMs";
           "Valid at terminals other than ATMs"];
    Oct 2 ["Domestic cashback allowed"; "International cashback allowed"];
    Any [(2, [6;5;4;3;2;1])] "RFU" "" ].

(** EMV 4.4 Book 3, Annex C5, table 46. *)
Definition T_tvr : list row :=
  [ Oct 1 ["Offline data authentication was not performed"; "Static Data Authentication (SDA) failed";
           "Integrated circuit card (ICC) data missing"; "Card appears on terminal exception file";
           "Dynamic Data Authentication (DDA) failed"; "Combined DDA/Application Cryptogram Generation (CDA) failed";
           "Static Data Authentication (SDA) selected"; "Extended Data Authentication (XDA) selected"];
    Oct 2 ["ICC and terminal have different application versions"; "Expired application"; "Application not yet effective";
           "Requested service not allowed for card product"; "New card"; "RFU"; "Biometric performed and successful";
           "Biometric template format not supported"];
    Oct 3 ["Cardholder verification was not successful"; "Unrecognised CVM"; "PIN Try Limit exceeded";
           "PIN entry required and PIN pad not present or not working";
           "PIN entry required, PIN pad present, but PIN was not entered"; "Online CVM captured";
           "Biometric required but Biometric capture device not working";
           "Biometric required, Biometric capture device present, but Biometric Subtype entry was bypassed"];
    Oct 4 ["Transaction exceeds floor limit"; "Lower consecutive offline limit exceeded"; "Upper consecutive offline limit exceeded";
           "Transaction selected randomly for online processing"; "Merchant forced transaction online"; "Biometric Try Limit exceeded";
           "A selected Biometric Type not supported"; "XDA signature verification failed"];
    Oct 5 ["Default TDOL used"; "Issuer authentication failed"; "Script processing failed before final GENERATE AC";
           "Script processing failed after final GENERATE AC"; ""; "CA ECC key missing"; "ECC key recovery failed"; ""];
    Any [(5, [4;1])] "Reserved for use by the EMV Contactless Specifications" "" ].

(** EMV 4.4 Book 3, Annex C6, table 47. *)
Definition T_tsi : list row :=
  [ Oct 1 ["Offline data authentication was performed"; "Cardholder verification was performed"; "Card risk management was performed";
           "Issuer authentication was performed"; "Terminal risk management was performed"; "Script processing was performed"];
    Any [(1, [2;1]); (2, [8;7;6;5;4;3;2;1])] "RFU" "" ].

(** EMV Contactless Book C-2 v2.10, Annex A.1.161; C-8, Annex A.1.131. *)
Definition T_trmd : list row :=
  [ Oct 1 ["Restart supported"; "Enciphered PIN verified online (Contactless)"; "Signature (paper) (Contactless)";
           "Enciphered PIN verification performed by ICC (Contactless)"; "No CVM required (Contactless)"; "CDCVM (Contactless)";
           "Plaintext PIN verification performed by ICC (Contactless)"; "Present and Hold supported"];
    Oct 2 ["CVM Limit exceeded"; "Enciphered PIN verified online (Contact)"; "Signature (paper) (Contact)";
           "Enciphered PIN verification performed by ICC (Contact)"; "No CVM required (Contact)"; "CDCVM (Contact)";
           "Plaintext PIN verification performed by ICC (Contact)"];
    Oct 3 ["Mag-stripe mode contactless transactions not supported"; "EMV mode contactless transactions not supported";
           "CDCVM without CDA supported"];
    Oct 4 ["CDCVM bypass requested"; "SCA exempt"];
    Any [(2, [1]); (3, [5;4;3;2;1]); (4, [6;5;4;3;2;1]); (5, [8;7;6;5;4;3;2;1]); (6, [8;7;6;5;4;3;2;1]);
         (7, [8;7;6;5;4;3;2;1]); (8, [8;7;6;5;4;3;2;1])] "RFU" "" ].

(** EMV Contactless Book A v2.10, 5.7, table 5-4. *)
Definition T_ttq : list row :=
  [ Any [(1, [8])] "Mag-stripe mode supported" "Mag-stripe mode not supported";
    Any [(1, [7])] "RFU" "";
    Any [(1, [6])] "EMV mode supported" "EMV mode not supported";
    Any [(1, [5])] "EMV contact chip supported" "EMV contact chip not supported";
    Any [(1, [4])] "Offline-only reader" "Online capable reader";
    Any [(1, [3])] "Online PIN supported" "Online PIN not supported";
    Any [(1, [2])] "Signature supported" "Signature not supported";
    Any [(1, [1])] "Offline Data Authentication for Online Authorizations supported"
                   "Offline Data Authentication for Online Authorizations not supported";
    Any [(2, [8])] "Online cryptogram required" "Online cryptogram not required";
    Any [(2, [7])] "CVM required" "CVM not required";
    Any [(2, [6])] "(Contact Chip) Offline PIN supported" "(Contact Chip) Offline PIN not supported";
    Any [(2, [5;4;3;2;1])] "RFU" "";
    Any [(3, [8])] "Issuer Update Processing supported" "Issuer Update Processing not supported";
    Any [(3, [7])] "Consumer Device CVM supported" "Consumer Device CVM not supported";
    Any [(3, [4])] "Consumer Device CVM required" "";
    Any [(3, [6;5;3;2;1])] "RFU" "";
    Any [(4, [8])] "fDDA v1.0 Supported" "";
    Any [(4, [7;6;5;4;3;2;1])] "RFU" "" ].

(** EMV Contactless Book C-3 v2.10, Annex A.2. *)
Definition T_ctq : list row :=
  [ Oct 1 ["Online PIN Required"; "Signature Required";
           "Go Online if Offline Data Authentication Fails and Reader is online capable";
           "Switch Interface if Offline Data Authentication fails and Reader supports contact chip";
           "Go Online if Application Expired"; "Switch Interface for Cash Transactions"; "Switch Interface for Cashback Transactions";
           "Not valid for contactless ATM transactions"];
    Oct 2 ["Consumer Device CVM Performed"; "Card supports Issuer Update Processing at the POS"];
    Any [(2, [6;5;4;3;2;1])] "RFU" "" ].

(** EMV Contactless Book C-4 v2.10, 4.3.4, table 4-4. *)
Definition T_enh_caps : list row :=
  [ Oct 1 ["Contact mode supported"; "Contactless Mag-Stripe Mode supported";
           "Contactless EMV full online mode supported (legacy feature and no longer supported)";
           "Contactless EMV partial online mode supported"; "Contactless Mobile Supported"; "Try Another Interface after a decline"];
    Any [(1, [2;1])] "RFU" "";
    Oct 2 ["Mobile CVM supported"; "Online PIN supported"; "Signature supported"; "Plaintext Offline PIN supported"];
    Any [(2, [4;3;2;1])] "RFU" "";
    Oct 3 ["Reader is offline only"; "CVM Required"];
    Any [(3, [6;5;4;3;2;1])] "RFU" "";
    Oct 4 ["Terminal exempt from No CVM checks"; "Delayed Authorisation Terminal"; "Transit Terminal"];
    Any [(4, [5;4])] "RFU" "";
    Val 4 3 1 [(1, "C-4 kernel version 2.2 - 2.3"); (2, "C-4 kernel version 2.4 - 2.6"); (3, "C-4 kernel version 2.7")]
        "C-4 kernel version unknown" ].

(** Visa Contactless Payment Specification, Annex D: form factor indicator, version 1. *)
Definition T_ffi : list row :=
  [ Val 1 5 1 [(0, "Consumer Payment Device Form Factor: Card"); (1, "Consumer Payment Device Form Factor: Mini-card");
               (2, "Consumer Payment Device Form Factor: Non-card Form Factor");
               (3, "Consumer Payment Device Form Factor: Consumer mobile phone");
               (4, "Consumer Payment Device Form Factor: Wrist-worn device")] "Consumer Payment Device Form Factor: Unknown";
    Oct 2 ["Consumer Payment Device Features: Passcode Capable"; "Consumer Payment Device Features: Signature Panel";
           "Consumer Payment Device Features: Hologram"; "Consumer Payment Device Features: CVV2";
           "Consumer Payment Device Features: Two-way Messaging"; "Consumer Payment Device Features: Cloud Based Payment Credentials";
           "Consumer Payment Device Features: Biometric Cardholder Verification Capable"; "Consumer Payment Device Features: RFU"];
    Any [(3, [8;7;6;5;4;3;2;1])] "Form Factor Indicator (FFI) byte 3: RFU" "";
    Val 4 4 1 [(0, "Payment Transaction Technology: Proximity Contactless interface using ISO 14443 (including NFC)");
               (1, "Payment Transaction Technology: Not used in VCPS")] "Payment Transaction Technology: Unknown";
    Any [(4, [8;7;6;5])] "Payment Transaction Technology: RFU" "" ].

(** The usual decimal text of a number, and two upper case hex digits of an octet. *)
Definition digit (d : Z) : Z := 48 + d.
Fixpoint decimal_text_n (k : nat) (v : Z) (acc : list Z) : list Z :=
  match k with
  | O => acc
  | Datatypes.S k => let acc := digit (v mod 10) :: acc in if v / 10 =? 0 then acc else decimal_text_n k (v / 10) acc
  end.
Definition decimal_text (v : Z) : list Z := decimal_text_n 20 v [].
Definition hex2 (b : Z) : list Z := hex_text [b].
Definition two_digits (v : Z) : list Z := if v <? 10 then digit 0 :: decimal_text v else decimal_text v.

(** The Card Verification Results.  EMV 4.4 Book 3, Annex C9.3, table CCD 10 (octets 4 to 8 of the
    issuer application data). *)
Definition ac_returned (n : Z) (first : string) : list row :=
  [ Val n 8 7 [(0, "Card Verification Results (CVR): Second GENERATE AC returned AAC");
               (1, "Card Verification Results (CVR): Second GENERATE AC returned TC");
               (2, "Card Verification Results (CVR): Second GENERATE AC Not Requested");
               (3, "Card Verification Results (CVR): Second GENERATE AC RFU")] "";
    Val n 6 5 [(0, append "Card Verification Results (CVR): " (append first " returned AAC"));
               (1, append "Card Verification Results (CVR): " (append first " returned TC"));
               (2, append "Card Verification Results (CVR): " (append first " returned ARQC"));
               (3, append "Card Verification Results (CVR): " (append first " RFU"))] "" ].
Definition T_ccd_before : list row :=
  Val 2 4 1 [(5, "Cryptogram Version: TDES"); (6, "Cryptogram Version: AES")] "" ::
  Num 3 8 1 true "Derivation Key Index (DKI): " hex2 "" ::
  ac_returned 4 "First GENERATE AC" ++
  [ Oct 4 [""; ""; ""; ""; "Card Verification Results (CVR): Combined DDA/Application Cryptogram Generation (CDA) Performed";
           "Card Verification Results (CVR): Offline Dynamic Data Authentication (DDA) Performed";
           "Card Verification Results (CVR): Issuer Authentication Not Performed";
           "Card Verification Results (CVR): Issuer Authentication Failed"];
    Num 5 8 5 true "Card Verification Results (CVR): PIN Try Counter is " decimal_text "";
    Oct 5 [""; ""; ""; ""; "Card Verification Results (CVR): Offline PIN Verification Performed";
           "Card Verification Results (CVR): Offline PIN Verification Performed and PIN Not Successfully Verified";
           "Card Verification Results (CVR): PIN Try Limit Exceeded";
           "Card Verification Results (CVR): Last Online Transaction Not Completed"];
    Oct 6 ["Card Verification Results (CVR): Lower Offline Transaction Count Limit Exceeded";
           "Card Verification Results (CVR): Upper Offline Transaction Count Limit Exceeded";
           "Card Verification Results (CVR): Lower Cumulative Offline Amount Limit Exceeded"] ].
Definition T_ccd_upper : row := Any [(6, [5])] "Card Verification Results (CVR): Upper Cumulative Offline Amount Limit Exceeded" "".
Definition T_ccd_after : list row :=
  [ Oct 6 [""; ""; ""; ""; "Card Verification Results (CVR): Issuer-discretionary bit 1";
           "Card Verification Results (CVR): Issuer-discretionary bit 2"; "Card Verification Results (CVR): Issuer-discretionary bit 3";
           "Card Verification Results (CVR): Issuer-discretionary bit 4"];
    Num 7 8 5 false "Card Verification Results (CVR): " decimal_text
        " Successfully Processed Issuer Script Commands Containing Secure Messaging";
    Oct 7 [""; ""; ""; ""; "Card Verification Results (CVR): Issuer Script Processing Failed";
           "Card Verification Results (CVR): Offline Data Authentication Failed on Previous Transaction";
           "Card Verification Results (CVR): Go Online on Next Transaction Was Set";
           "Card Verification Results (CVR): Unable to go Online"];
    Any [(8, [8;7;6;5;4;3;2;1])] "Card Verification Results (CVR): RFU" "" ].
Definition T_ccd : list row := T_ccd_before ++ T_ccd_upper :: T_ccd_after.

(** M/Chip Requirements for Contact and Contactless, Appendix B; octets 3 to 8 are the CVR. *)
Definition T_mchip_limits (four : bool) : list row :=
  [ Oct 7 (if four then ["Card Verification Results (CVR): Lower Consecutive Offline Limit Exceeded";
                         "Card Verification Results (CVR): Upper Consecutive Offline Limit Exceeded";
                         "Card Verification Results (CVR): Lower Cumulative Offline Limit Exceeded";
                         "Card Verification Results (CVR): Upper Cumulative Offline Limit Exceeded"]
           else ["Card Verification Results (CVR): Lower Consecutive Counter 1 Limit Exceeded";
                 "Card Verification Results (CVR): Upper Consecutive Counter 1 Limit Exceeded";
                 "Card Verification Results (CVR): Lower Cumulative Accumulator Limit Exceeded";
                 "Card Verification Results (CVR): Upper Cumulative Accumulator Limit Exceeded"]) ].
Definition T_mchip_head : list row :=
  [ Num 1 8 1 true "Derivation Key Index (DKI): " hex2 "";
    Num 2 8 1 true "Cryptogram Version Number (CVN): " hex2 "";
    Val 2 3 2 [(0, "Cryptogram: Mastercard Proprietary SKD session key"); (2, "Cryptogram: EMV CSK session key")] "" ].
Definition T_mchip_a : list row :=
  Any [(2, [1])] "Cryptogram: Counter included in AC data" "Cryptogram: Counters not included in AC data" ::
  ac_returned 3 "First GENERATE AC" ++
  [ Oct 3 [""; ""; ""; ""; "Card Verification Results (CVR): Date Check Failed";
           "Card Verification Results (CVR): Offline PIN Verification Performed";
           "Card Verification Results (CVR): Offline Encrypted PIN Verification Performed";
           "Card Verification Results (CVR): Offline PIN Verification Successful"];
    Oct 4 ["Card Verification Results (CVR): Dynamic Data Authentication (DDA) Returned";
           "Card Verification Results (CVR): Combined DDA/Application Cryptogram Generation (CDA) Returned in First GENERATE AC";
           "Card Verification Results (CVR): Combined DDA/Application Cryptogram Generation (CDA) Returned in Second GENERATE AC";
           "Card Verification Results (CVR): Issuer Authentication Performed";
           "Card Verification Results (CVR): Card Issuer Action Codes (CIAC) Default Skipped on Cardholder Activated Terminal Level 3 (CAT3)";
           "Card Verification Results (CVR): Offline Change PIN Result Successful"];
    Any [(4, [2;1])] "Card Verification Results (CVR): Issuer Discretionary" "";
    Num 5 8 5 false "Card Verification Results (CVR): Script Counter is " decimal_text "";
    Num 5 4 1 false "Card Verification Results (CVR): PIN Try Counter is " decimal_text "";
    Oct 6 ["Card Verification Results (CVR): Last Online Transaction Not Completed";
           "Card Verification Results (CVR): Unable To Go Online";
           "Card Verification Results (CVR): Offline PIN Verification Not Performed";
           "Card Verification Results (CVR): Offline PIN Verification Failed";
           "Card Verification Results (CVR): PTL Exceeded"; "Card Verification Results (CVR): International Transaction";
           "Card Verification Results (CVR): Domestic Transaction";
           "Card Verification Results (CVR): Terminal Erroneously Considers Offline PIN OK"] ].
Definition T_mchip_c : list row :=
  [ Oct 7 [""; ""; ""; ""; "Card Verification Results (CVR): Go Online On Next Transaction Was Set";
           "Card Verification Results (CVR): Issuer Authentication Failed"; "Card Verification Results (CVR): Script Received";
           "Card Verification Results (CVR): Script Failed"];
    Oct 8 ["Card Verification Results (CVR): Lower Consecutive Counter 2 Limit Exceeded";
           "Card Verification Results (CVR): Upper Consecutive Counter 2 Limit Exceeded";
           "Card Verification Results (CVR): Lower Cumulative Accumulator 2 Limit Exceeded";
           "Card Verification Results (CVR): Upper Cumulative Accumulator 2 Limit Exceeded";
           "Card Verification Results (CVR): MTA Limit Exceeded";
           "Card Verification Results (CVR): Number Of Days Offline Limit Exceeded";
           "Card Verification Results (CVR): Match Found In Additional Check Table";
           "Card Verification Results (CVR): No Match Found In Additional Check Table"] ].
Definition T_mchip (four : bool) : list row := T_mchip_head ++ T_mchip_a ++ T_mchip_limits four ++ T_mchip_c.

(** Visa Contactless Payment Specification, Appendix M.  Octet 4 of formats 0, 1 and 3 is the length
    of the CVR. *)
Definition T_vsdc_cvr (pin : list string) : list row :=
  [ Oct 5 ([""; ""; ""; ""; "Card Verification Results (CVR): Issuer Authentication performed and failed"] ++ pin ++
           ["Card Verification Results (CVR): Unable to go online"]);
    Oct 6 ["Card Verification Results (CVR): Last online transaction not completed"; "Card Verification Results (CVR): PIN Try Limit exceeded";
           "Card Verification Results (CVR): Exceeded velocity checking counters"; "Card Verification Results (CVR): New card";
           "Card Verification Results (CVR): Issuer Authentication failure on last online transaction";
           "Card Verification Results (CVR): Issuer Authentication not performed after online authorization";
           "Card Verification Results (CVR): Application blocked by card because PIN Try Limit exceeded";
           "Card Verification Results (CVR): Offline static data authentication failed on last transaction"];
    Num 7 8 5 false "Card Verification Results (CVR): Script Counter is " decimal_text "";
    Oct 7 [""; ""; ""; ""; "Card Verification Results (CVR): Issuer Script processing failed";
           "Card Verification Results (CVR): Offline dynamic data authentication failed on last transaction";
           "Card Verification Results (CVR): Offline dynamic data authentication performed";
           "Card Verification Results (CVR): PIN verification command not received for a PIN-Expecting card"] ].
Definition T_vsdc_013 : list row :=
  Num 2 8 1 true "Derivation Key Index (DKI): " hex2 "" ::
  Num 3 8 1 true "Cryptogram Version Number (CVN): " (fun x => hex2 x ++ lit " (CVN" ++ two_digits x) ")" ::
  ac_returned 5 "First GENERATE AC" ++
  T_vsdc_cvr ["Card Verification Results (CVR): Offline PIN verification performed";
              "Card Verification Results (CVR): Offline PIN verification failed"].
Definition T_vsdc_24 : list row :=
  Num 2 8 1 true "Cryptogram Version Number (CVN): " (fun x => hex2 x ++ lit " (CVN'" ++ hex2 x) "')" ::
  Num 3 8 1 true "Derivation Key Index (DKI): " hex2 "" ::
  Any [(4, [8;7;6;5;4;3;2;1])] "" "No CDCVM" ::
  Val 4 8 5 [(1, "Card Verification Results (CVR): Visa Mobile Payment Application (VMPA)"); (2, "Card Verification Results (CVR): MG");
             (3, "Card Verification Results (CVR): Co-residing SE app"); (4, "Card Verification Results (CVR): TEE app");
             (5, "Card Verification Results (CVR): Mobile Application"); (6, "Card Verification Results (CVR): Terminal");
             (7, "Card Verification Results (CVR): Verified in the cloud");
             (8, "Card Verification Results (CVR): Verified by the mobile device OS")] "" ::
  Val 4 4 1 [(1, "Card Verification Results (CVR): Passcode"); (2, "Card Verification Results (CVR): Finger biometric");
             (3, "Card Verification Results (CVR): Mobile device pattern"); (4, "Card Verification Results (CVR): Facial biometric");
             (5, "Card Verification Results (CVR): Iris biometric"); (6, "Card Verification Results (CVR): Voice biometric");
             (7, "Card Verification Results (CVR): Palm biometric"); (13, "Card Verification Results (CVR): Signature");
             (14, "Card Verification Results (CVR): Online PIN")] "" ::
  ac_returned 5 "GPO" ++
  T_vsdc_cvr ["Card Verification Results (CVR): CDCVM successfully performed"; "Card Verification Results (CVR): RFU"] ++
  [ Oct 8 ["Card Verification Results (CVR): Consumer Device is not in debug mode";
           "Card Verification Results (CVR): Consumer Device is not a rooted device";
           "Card Verification Results (CVR): Mobile Application is not hooked";
           "Card Verification Results (CVR): Mobile Application integrity is intact";
           "Card Verification Results (CVR): Consumer Device has data connectivity";
           "Card Verification Results (CVR): Consumer Device is genuine";
           "Card Verification Results (CVR): CDCVM successfully performed";
           "Card Verification Results (CVR): Secure Messaging uses EMV Session key-based derivation"] ].

(** EMV 4.4 Book 3, Annex C10: the card status update. *)
Definition T_csu_before : list row :=
  [ Oct 1 ["Card Status Update (CSU): Proprietary Authentication Data Included"];
    Num 1 4 1 false "Card Status Update (CSU): PIN Try Counter = " decimal_text "";
    Oct 2 ["Card Status Update (CSU): Issuer Approves Online Transaction"; "Card Status Update (CSU): Card Block";
           "Card Status Update (CSU): Application Block"; "Card Status Update (CSU): Update PIN Try Counter";
           "Card Status Update (CSU): Set Go Online on Next Transaction";
           "Card Status Update (CSU): CSU Created by Proxy for the Issuer"] ].
Definition T_csu_counters : row :=
  Val 2 2 1 [(0, "Card Status Update (CSU): Do Not Update Offline Counters");
             (1, "Card Status Update (CSU): Set Offline Counters to Upper Offline Limits");
             (2, "Card Status Update (CSU): Reset Offline Counters to Zero");
             (3, "Card Status Update (CSU): Add Transaction to Offline Counter")] "".
Definition T_csu_after : list row :=
  [ Num 4 8 1 false "Card Status Update (CSU): Issuer Discretionary 0x" hex2 "";
    Any [(1, [7;6;5]); (3, [8;7;6;5;4;3;2;1])] "Card Status Update (CSU): RFU" "" ].
Definition T_csu : list row := T_csu_before ++ T_csu_counters :: T_csu_after.

(** EMV 4.4 Book 4, Annex A1, table 24: the terminal type is two digits; the first is who
    controls the terminal (1 to 3), the second the environment (1 to 6). *)
Definition term_type_texts (b : Z) : list (list Z) :=
  [ lit (chosen (b / 16) [(1, "Operational Control: Financial Institution"); (2, "Operational Control: Merchant");
                          (3, "Operational Control: Cardholder")] "Operational Control: Unknown");
    lit (chosen (b mod 16) [(1, "Environment: Attended, online only"); (2, "Environment: Attended, offline with online capability");
                            (3, "Environment: Attended, offline only"); (4, "Environment: Unattended, online only");
                            (5, "Environment: Unattended, offline with online capability"); (6, "Environment: Unattended, offline only")]
          "Environment: Unknown") ].

(** EMV 4.4 Book 3, 6.5.5.4, table 15: the cryptogram information data. *)
Definition T_cid : list row :=
  [ Val 1 8 7 [(0, "Application Cryptogram (AC) type: Application Authentication Cryptogram (AAC)");
               (1, "Application Cryptogram (AC) type: Transaction Certificate (TC)");
               (2, "Application Cryptogram (AC) type: Authorisation Request Cryptogram (ARQC)")] "Application Cryptogram (AC) type: RFU";
    Num 1 6 5 false "Payment System-specific cryptogram: 0x" (fun x => hex2 (16 * x)) "";
    Val 1 4 1 [(0, ""); (1, "No advice required"); (2, "No advice required"); (3, "No advice required"); (4, "No advice required");
               (5, "No advice required"); (6, "No advice required"); (7, "No advice required")] "Advice required";
    Val 1 3 1 [(0, ""); (1, "Advice: Service not allowed"); (2, "Advice: PIN Try Limit exceeded");
               (3, "Advice: Issuer authentication failed")] "Advice: RFU" ].

(** The whole description of issuer application data of format [f] (FieldsSpec.v). *)
Definition iad_texts (f : Z) (iad : list Z) : list (list Z) :=
  let vsdc n t := lit "Application: Visa Smart Debit/Credit (VSDC)" :: (lit "IAD Format: " ++ decimal_text n) :: table_texts t iad in
  if f =? IAD_CCD then lit "Application: CCD-Compliant" :: lit "IAD Format: CCD Version 4.1" :: table_texts T_ccd iad
  else if f =? IAD_MCHIP4 then lit "Application: M/Chip 4" :: table_texts (T_mchip true) iad
  else if f =? IAD_MCHIP_ADVANCE then lit "Application: M/Chip Advance" :: table_texts (T_mchip false) iad
  else if f =? IAD_VSDC_0 then vsdc 0 T_vsdc_013
  else if f =? IAD_VSDC_1 then vsdc 1 T_vsdc_013
  else if f =? IAD_VSDC_2 then vsdc 2 T_vsdc_24
  else if f =? IAD_VSDC_3 then vsdc 3 T_vsdc_013
  else vsdc 4 T_vsdc_24.

(** EMV 4.4 Book 3, 10.2: an entry of the application file locator in words. *)
Definition afl_line (e : afl_entry) : list Z :=
  lit "SFI " ++ decimal_text (a_sfi e) ++ lit ", record " ++ decimal_text (a_first e) ++
  (if a_last e =? a_first e then [] else lit " to " ++ decimal_text (a_last e)) ++
  (if a_oda e =? 0 then []
   else lit ", " ++ decimal_text (a_oda e) ++ lit (if a_oda e =? 1 then " record" else " records") ++ lit " used for offline data authentication").

(** EMV 4.4 Book 3, Annex C3, tables 43 (bits 6 to 1 of the first octet of a rule) and 44 (the second). *)
Definition cvm_name (b : Z) : string :=
  chosen (range b 6 1)
    [(0, "Fail CVM processing"); (1, "Plaintext PIN verification performed by ICC"); (2, "Enciphered PIN verified online");
     (3, "Plaintext PIN verification performed by ICC and signature"); (4, "Enciphered PIN verification performed by ICC");
     (5, "Enciphered PIN verification performed by ICC and signature"); (6, "Facial biometric verified offline (by ICC)");
     (7, "Facial biometric verified online"); (8, "Finger biometric verified offline (by ICC)"); (9, "Finger biometric verified online");
     (10, "Palm biometric verified offline (by ICC)"); (11, "Palm biometric verified online"); (12, "Iris biometric verified offline (by ICC)");
     (13, "Iris biometric verified online"); (14, "Voice biometric verified offline (by ICC)"); (15, "Voice biometric verified online");
     (30, "Signature (paper)"); (31, "No CVM required"); (63, "Invalid CV Rule")] "Unknown CVM".
Definition limit_words (b : Z) (x y : list Z) : list Z :=
  lit "If transaction is in the application currency and is " ++ lit (if Z.even b then "under " else "over ") ++
  (if b <? 8 then x else y) ++ lit " value".
Definition cond_words (b : Z) (x y : list Z) : list Z :=
  if (6 <=? b) && (b <=? 9) then limit_words b x y
  else lit (chosen b [(0, "Always"); (1, "If unattended cash");
                      (2, "If not unattended cash and not manual cash and not purchase with cashback");
                      (3, "If terminal supports the CVM"); (4, "If manual cash"); (5, "If purchase with cashback")] "Unknown condition").
Definition rule_line (x y : Z) (r : Z * Z) : list Z :=
  cond_words (snd r) (decimal_text x) (decimal_text y) ++ lit "; " ++ lit (cvm_name (fst r)) ++ lit "; " ++
  lit (if bit (fst r) 7 then "Apply succeeding CV Rule if this CVM is unsuccessful"
       else "Fail cardholder verification if this CVM is unsuccessful").
(** EMV 4.4 Book 4, Annex A4, table 33: the CVM results. *)
Definition cvm_results_lines (a b c : Z) : list (list Z) :=
  [ lit "CVM Performed: " ++ lit (if a =? 63 then "CVM not performed" else cvm_name a);
    lit "CVM Condition: " ++ cond_words b (lit "X") (lit "Y");
    lit "CVM Result: " ++ (if c =? 0 then lit "Unknown" else if c =? 1 then lit "Failed" else if c =? 2 then lit "Successful" else decimal_text c) ].

(** EMV 4.4 Book 1, 12.5: application selection registered proprietary data is a sequence of
    identifier (2 octets), length, data. *)
Definition asrpd_entry (e : list Z * list Z) : list Z := fst e ++ Zlen (snd e) :: snd e.
Definition asrpd_ok (e : list Z * list Z) : Prop := length (fst e) = 2%nat /\ bytes (fst e) /\ bytes (snd e) /\ (length (snd e) < 256)%nat.
Definition asrpd_line (e : list Z * list Z) : list Z :=
  lit (chosen (be (fst e)) [(1, "European Cards Stakeholders Group"); (3, "Technical Cooperation ep2 Association")] "Unknown ASRPD identifier").

(** M/Chip Requirements, appendix on third party data: country code (2), unique identifier (2), device type (2, if
    bit 8 of the identifier is clear), proprietary data. *)
Definition tpd_fleet_table : list row :=
  [ Val 3 8 1 [(0, ""); (1, "Product Restriction Code: Good for fuel and other products"); (2, "Product Restriction Code: Good for fuel only")]
        "Product Restriction Code: RFU";
    Oct 4 [""; ""; ""; ""; "Product Type Code: Prompt for Odometer"; "Product Type Code: Prompt for Driver Number";
           "Product Type Code: Prompt for Vehicle Number"; "Product Type Code: Prompt for ID Number"];
    Any [(4, [8;7;6;5])] "Product Type Code: RFU" "";
    Val 5 8 1 [(0, ""); (128, "Card Type: Driver card"); (64, "Card Type: Vehicle card")] "Card Type: RFU" ].
Definition tpd_transit_table : list row :=
  [ Oct 3 ["Transit: Deferred Authorization Not Supported"];
    Any [(3, [7;6;5;4;3;2;1])] "Transit: RFU" "";
    Val 4 8 1
      [(1, "Concession Code: 01 - Senior Citizen, potentially eligible for senior citizen discounts");
       (2, "Concession Code: 02 - Student, potentially eligible for student-based discounts");
       (3, "Concession Code: 03 - Active military and veterans, potentially eligible for service member discounts");
       (4, "Concession Code: 04 - Low Income household, potentially eligible for means-based discounts");
       (5, "Concession Code: 05 - Disability, eligible for paratransit and other disability discounts");
       (6, "Concession Code: 06 - Minor Child, potentially enables free travel for under 16 and young kids");
       (7, "Concession Code: 07 - Transit Staff, potentially enables free travel for transit staff");
       (8, "Concession Code: 08 - City/Government/Preferred Employees, potentially enables discounted travel for federal and preferred employees")]
      "Concession Code: RFU" ].

(** EMV 4.4 Book 3, Annex C11 and schemes: issuer authentication data [iad] is one of
    cryptogram (8 octets) and authorisation response code (two letters or digits);
    cryptogram (8) and M/Chip response code (2, the first below 10 hex);
    cryptogram (4), card status update (4) and proprietary data. *)
Definition alnum (c : Z) : bool := ((48 <=? c) && (c <=? 57)) || ((65 <=? c) && (c <=? 90)) || ((97 <=? c) && (c <=? 122)).
Definition arpc_line (c : list Z) : list Z := lit "Authorisation Response Cryptogram (ARPC): " ++ hex_text c.
Inductive issuer_auth : list Z -> list (list Z) -> Prop :=
| ia_visa c x y : length c = 8%nat -> alnum x = true -> alnum y = true ->
    issuer_auth (c ++ [x; y]) [arpc_line c; lit "Authorisation Response Code: " ++ [x; y]]
| ia_mchip c x y : length c = 8%nat -> x < 16 ->
    issuer_auth (c ++ [x; y]) [arpc_line c; lit "M/Chip ARPC Response Code: " ++ hex_text [x; y]]
| ia_ccd c csu more : length c = 4%nat -> length csu = 4%nat -> (length more <= 8)%nat ->
    ~ (length more = 2%nat /\ (alnum (nth 0 more 0) = true /\ alnum (nth 1 more 0) = true \/ nth 0 more 0 < 16)) ->
    range (octet csu 1) 7 5 = 0 -> octet csu 3 = 0 ->
    issuer_auth (c ++ csu ++ more)
      (arpc_line c :: table_texts T_csu csu ++
       (if bit (octet csu 1) 8 && negb (Zlen more =? 0)
        then [lit "Proprietary Authentication Data: " ++ decimal_text (Zlen more) ++ lit " bytes"] else [])).

(** ISO 8583:2021 data element 22 position 1 etc: texts for one octet. *)
Definition pos_entry (b : Z) : string :=
  chosen b [(0x00, "Unknown"); (0x01, "Manual PAN entry"); (0x02, "Magnetic stripe"); (0x03, "Optical Code"); (0x04, "OCR");
            (0x05, "Integrated circuit card (ICC). CVV can be checked."); (0x07, "Auto entry via contactless EMV");
            (0x10, "Merchant has Cardholder Credentials on File");
            (0x80, "Fallback from integrated circuit card (ICC) to magnetic stripe");
            (0x90, "Magnetic stripe as read from track 2. CVV can be checked."); (0x91, "Auto entry via contactless magnetic stripe");
            (0x95, "Integrated circuit card (ICC). CVV may not be checked."); (0x99, "Same as original transaction")] "".
Definition transaction_type (b : Z) : string :=
  chosen b [(0x00, "Goods and services"); (0x01, "Cash"); (0x09, "Cashback"); (0x20, "Refund"); (0x30, "Inquiry")] "".
Definition account_type (b : Z) : string :=
  chosen b [(0x00, "Default"); (0x10, "Savings"); (0x20, "Cheque/Debit"); (0x30, "Credit")] "".
(** EMV Contactless Book C-4, 4.3.3, table 4-2: bits 8, 7 and 4. *)
Definition amex_reader (b : Z) : string :=
  match bit b 8, bit b 7, bit b 4 with
  | false, false, false => "Deprecated"
  | false, true, false => "Mag-stripe CVM Not Required"
  | false, true, true => "Mag-stripe CVM Required"
  | true, false, false => "Deprecated - EMV and Mag-stripe"
  | true, true, false => "EMV and Mag-stripe CVM Not Required"
  | true, true, true => "EMV and Mag-stripe CVM Required"
  | _, _, _ => "Not Available for Use"
  end.

(** The names of device types 00 to 33 (two decimal digits). *)
Definition device_names : list string :=
  [ "Card";
    "Mobile Phone or Smartphone with Mobile Network Operator (MNO) controlled removable secure element (SIM or UICC) personalized for use with a mobile phone or smartphone";
    "Key Fob";
    "Watch using a contactless chip or a fixed (non-removable) secure element not controlled by the MNO";
    "Mobile Tag"; "Wristband"; "Mobile Phone Case or Sleeve";
    "Mobile phone or smartphone with a fixed (non-removable) secure element controlled by the MNO, for example, code division multiple access (CDMA)";
    "Removable secure element not controlled by the MNO, for example, memory card personalized for used with a mobile phone or smartphone";
    "Mobile Phone or smartphone with a fixed (non-removable) secure element not controlled by the MNO";
    "MNO controlled removable secure element (SIM or UICC) personalized for use with a tablet or e-book";
    "Tablet or e-book with a fixed (non-removable) secure element controlled by the MNO";
    "Removable secure element not controlled by the MNO, for example, memory card personalized for use with a tablet or e-book";
    "Tablet or e-book with fixed (non-removable) secure element not controlled by the MNO";
    "Mobile phone or smartphone with a payment application running in a host processor";
    "Tablet or e-book with a payment application running in a host processor";
    "Mobile phone or smartphone with a payment application running in the Trusted Execution Environment (TEE) of a host processor";
    "Tablet or e-book with a payment application running in the TEE of a host processor";
    "Watch with a payment application running in the TEE of a host processor";
    "Watch with a payment application running in a host processor";
    "Card"; "Phone (Mobile phone)"; "Tablet/e-reader (Tablet computer or e-reader)";
    "Watch/Wristband (Watch or wristband, including a fitness band, smart strap, disposable band, watch add-on, and security/ID band)";
    "Sticker"; "PC (PC or laptop)"; "Device Peripheral (Mobile phone case or sleeve)"; "Tag (Key fob or mobile tag)";
    "Jewelry (Ring, bracelet, necklace, and cuff links)"; "Fashion Accessory (Handbag, bag charm, and glasses)"; "Garment (Dress)";
    "Domestic Appliance (Refrigerator, washing machine)"; "Vehicle (Vehicle, including vehicle attached devices)";
    "Media/Gaming Device (Media or gaming device, including a set top box, media player, and television)" ].
(** The device type [d] in words: its characters (none of them NUL), and its name if it has one. *)
Definition device_line (d : list Z) : list Z :=
  lit "Device Type: " ++ d ++
  match d with
  | [a; b] =>
    if forallb (fun c => (48 <=? c) && (c <=? 57)) d && (10 * (a - 48) + (b - 48) <? 34)
    then lit " - " ++ lit (nth (Z.to_nat (10 * (a - 48) + (b - 48))) device_names "") else []
  | _ => []
  end.
(** The unique identifier and device type of third party data that is a product extension. *)
Inductive extension : list Z -> list (list Z) -> Prop :=
| ext_device d : length d = 2%nat -> Forall (fun c => c <> 0) d -> extension ([0; 3] ++ d) [device_line d]
| ext_plain : extension [0x80; 3] [].
(** Third party data and its description; [country] gives the name of a country, if any. *)
Inductive third_party (country : list Z -> option (list Z)) : list Z -> list (list Z) -> Prop :=
| tp_none cc d : length cc = 2%nat -> length d = 2%nat -> Forall (fun c => c <> 0) d ->
    third_party country (cc ++ [0; 0] ++ d ++ [0])
      [lit "Country: " ++ match country cc with Some s => s | None => lit "Unknown" end;
       lit "Unique Identifier: Proprietary Data not used"; device_line d; lit "Proprietary Data: Not used"]
| tp_fleet cc id dev data : length cc = 2%nat -> extension id dev -> length data = 6%nat ->
    third_party country (cc ++ id ++ [0; 1] ++ data)
      ([lit "Country: " ++ match country cc with Some s => s | None => lit "Unknown" end;
        lit "Unique Identifier: Mastercard Product Extension"] ++ dev ++ lit "Product Identifier: Fleet Card" ::
       table_texts tpd_fleet_table ([0; 1] ++ data))
| tp_transit cc id dev data : length cc = 2%nat -> extension id dev -> length data = 3%nat ->
    third_party country (cc ++ id ++ [0; 2] ++ data)
      ([lit "Country: " ++ match country cc with Some s => s | None => lit "Unknown" end;
        lit "Unique Identifier: Mastercard Product Extension"] ++ dev ++ lit "Product Identifier: Transit" ::
       table_texts tpd_transit_table ([0; 2] ++ data)).

(** ISO 8583 response codes in common use, and the text after the code. *)
Definition common_codes : list (string * string) :=
  [ ("00", "Approved or completed successfully"); ("01", "Refer to card issuer"); ("03", "Invalid merchant"); ("04", "Pick-up");
    ("05", "Do not honour"); ("10", "Approved for partial amount"); ("11", "Approved (VIP)"); ("12", "Invalid transaction");
    ("13", "Invalid amount"); ("14", "Invalid card/cardholder number"); ("15", "No such issuer (invalid IIN)"); ("30", "Format error");
    ("41", "Lost card, pick-up"); ("43", "Stolen card, pick-up"); ("51", "Not sufficient funds"); ("54", "Expired card");
    ("55", "Incorrect personal identification number"); ("57", "Transaction not permitted to cardholder");
    ("58", "Transaction not permitted to terminal"); ("61", "Exceeds withdrawal amount limit"); ("62", "Restricted card");
    ("63", "Security violation"); ("65", "Exceeds withdrawal frequency limit"); ("75", "Allowable number of PIN tries exceeded");
    ("91", "Issuer or switch is unavailable or inoperative"); ("94", "Duplicate transmission"); ("96", "System malfunction") ].
