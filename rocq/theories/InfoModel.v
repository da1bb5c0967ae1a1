(** Model of the description of fields in src/emv_strings.c: [emv_tlv_get_info] and the functions
    it uses that are not modelled elsewhere. *)
From Coq Require Import String.
From Verif Require Import Base TlvModel StrModel CapduModel FieldsModel FlagsModel.
Open Scope string_scope.
Open Scope Z_scope.
Open Scope list_scope.
Notation length := List.length.

(** What is outside the model: the ISO code and merchant category lookups of src/isocodes_lookup.cpp
    and src/mcc_lookup.cpp (the text found, if any; codes of letters are without the NUL), and what
    is in local arrays before they are written (country_str and currency_str have 128 chars,
    arc_str 3, cond_str 128, the array of SELECT identifiers 511). *)
Record env := mkEnv {
  by_alpha2 : list Z -> option (list Z); by_alpha3 : list Z -> option (list Z); by_numeric : Z -> option (list Z);
  currency_by : Z -> option (list Z); language_by : list Z -> option (list Z); mcc_by : Z -> option (list Z);
  j_text : list Z; j_arc : list Z; j_cond : list Z; j_id : list Z }.

(** strncpy(str, s, str_len - 1); str[str_len - 1] = 0; return 0; *)
Definition copy_text (s str : list Z) : out (Z * list Z) :=
  let* str := strncpy str (length str - 1) s in let* str := wr str (length str - 1) 0 in Ret (0, str).
(** What follows a lookup: if (!s) { str[0] = 0; return 0; } and the copy. *)
Definition found (s : option (list Z)) (str : list Z) : out (Z * list Z) :=
  match s with None => let* str := wr str 0 0 in Ret (0, str) | Some s => copy_text s str end.

(** emv_strings.c:2889-2923 [emv_country_alpha2_code_get_string], 2925-2959
    [emv_country_alpha3_code_get_string]: a field of [n] letters. *)
Definition letters_string (n : Z) (look : list Z -> option (list Z)) (v str : list Z) : out (Z * list Z) :=
  if Zlen v =? 0 then Ret (-1, str)
  else if Zlen str =? 0 then Ret (0, str)
  else if negb (Zlen v =? n) then Ret (1, str)
  else
    (* the lookup takes a C string *)
    let* code := p_s (v ++ [0]) in found (look code) str.
Definition country_alpha2_string (e : env) := letters_string 2 (by_alpha2 e).
Definition country_alpha3_string (e : env) := letters_string 3 (by_alpha3 e).
(** emv_strings.c:2961-2998 [emv_country_numeric_code_get_string], 3000-3037
    [emv_currency_numeric_code_get_string] and 1954-1996 [emv_mcc_get_string]. *)
Definition numeric_string (look : Z -> option (list Z)) (v str : list Z) : out (Z * list Z) :=
  if Zlen v =? 0 then Ret (-1, str)
  else if Zlen str =? 0 then Ret (0, str)
  else if negb (Zlen v =? 2) then Ret (1, str)
  else
    match format_n_to_uint v with
    | (0, Some n) => found (look n) str
    | (r, _) => Ret (r, str)
    end.
Definition country_numeric_string (e : env) := numeric_string (by_numeric e).
Definition currency_numeric_string (e : env) := numeric_string (currency_by e).
Definition mcc_string (e : env) := numeric_string (mcc_by e).
(** emv_strings.c:3039-3077 [emv_language_alpha2_code_get_string]; tolower in the C locale. *)
Definition tolower (c : Z) : Z := if (0x41 <=? c) && (c <=? 0x5A) then c + 32 else c.
Definition language_alpha2_string (e : env) (v str : list Z) : out (Z * list Z) :=
  if Zlen v =? 0 then Ret (-1, str)
  else if Zlen str =? 0 then Ret (0, str)
  else if negb (Zlen v =? 2) then Ret (1, str)
  else
    let* a := rd v 0 in
    let* b := rd v 1 in
    let* code := p_s [tolower a; tolower b; 0] in found (language_by e code) str.

(** emv_strings.c:3079-3116 [emv_app_reference_currency_get_string_list], 3118-3155
    [emv_language_preference_get_string_list]: the texts added, with the return value. *)
Fixpoint pair_texts (f : list Z -> list Z -> out (Z * list Z)) (junk v : list Z) : out (Z * list (list Z)) :=
  match v with
  | a :: b :: v =>
    let* (r, buf) := f [a; b] junk in
    if negb (r =? 0) then Ret (r, [])
    else
      let* c := rd buf 0 in
      let* t := (if negb (c =? 0) then p_s buf else Ret (lit "Unknown")) in
      let* (r, ts) := pair_texts f junk v in Ret (r, t :: ts)
  | _ => Ret (0, [])
  end.
Definition pair_list (f : list Z -> list Z -> out (Z * list Z)) (junk v str : list Z) : out (Z * list Z) :=
  if (Zlen v =? 0) || (Zlen str =? 0) then Ret (-1, str)
  else if negb (Z.land (Zlen v) 1 =? 0) then Ret (1, str)
  else let* (r, t) := pair_texts f junk v in emit r t str.
Definition currency_list (e : env) := pair_list (currency_numeric_string e) (j_text e).
Definition language_list (e : env) := pair_list (language_alpha2_string e) (j_text e).

(** The text tpd_list (FlagsModel.v) asks for: emv_strings.c:5184-5190, with the array cleared first. *)
Definition tpd_country (e : env) (cc : list Z) : option (list Z) :=
  match country_numeric_string e cc (repeat 0 128) with
  | Ret (0, buf) => match p_s buf with Ret [] => None | Ret t => Some t | _ => None end
  | _ => None
  end.

(** emv_strings.c:2439-2560 [emv_aid_get_string]: enum emv_card_product_t and enum emv_card_scheme_t
    (emv_fields.h) as in FieldsModel.v. *)
Definition product_names : list (Z * string) :=
  [(1, "Visa Credit/Debit");
   (2, "Visa Electron");
   (3, "V Pay");
   (4, "Visa Plus");
   (5, "Visa USA Debit");
   (6, "Mastercard Credit/Debit");
   (7, "Maestro");
   (8, "Mastercard Cirrus");
   (9, "Mastercard USA Debit");
   (10, "Maestro UK");
   (11, "Mastercard Test Card");
   (12, "American Express Credit/Debit");
   (13, "American Express (China Credit/Debit)");
   (14, "Discover Card");
   (15, "Discover USA Debit");
   (16, "Discover ZIP");
   (17, "Cartes Bancaires (CB) Credit/Debit");
   (18, "Cartes Bancaires (CB) Debit");
   (19, "Visa/Dankort");
   (20, "Dankort (J/Speedy)");
   (21, "UnionPay Debit");
   (22, "UnionPay Credit");
   (23, "UnionPay Quasi-credit");
   (24, "UnionPay Electronic Cash");
   (25, "UnionPay USA Debit");
   (26, "GIM-UEMOA Standard");
   (27, "GIM-UEMOA Prepaye Online");
   (28, "GIM-UEMOA Classic");
   (29, "GIM-UEMOA Prepaye Possibile Offline");
   (30, "GIM-UEMOA Retrait");
   (31, "GIM-UEMOA Porte Monnaie Electronique");
   (32, "Deutsche Kreditwirtschaft (DK) Girocard");
   (33, "eftpos (Australia) savings");
   (34, "eftpos (Australia) cheque");
   (35, "Mir Credit");
   (36, "Mir Debit")].
Definition scheme_names : list (Z * string) :=
  [(SCHEME_VISA, "Visa"); (SCHEME_MASTERCARD, "Mastercard"); (SCHEME_AMEX, "American Express"); (SCHEME_DISCOVER, "Discover"); (SCHEME_CB, "Cartes Bancaires (CB)"); (SCHEME_JCB, "JCB"); (SCHEME_DANKORT, "Dankort"); (SCHEME_UNIONPAY, "UnionPay"); (SCHEME_GIMUEMOA, "GIM-UEMOA"); (SCHEME_DK, "Deutsche Kreditwirtschaft (DK)"); (SCHEME_VERVE, "Verve"); (SCHEME_EFTPOS, "eftpos (Australia)"); (SCHEME_RUPAY, "RuPay"); (SCHEME_MIR, "Mir"); (SCHEME_MEEZA, "Meeza")].
Definition aid_string (aid str : list Z) : out (Z * list Z) :=
  if Zlen aid =? 0 then Ret (-1, str)
  else if Zlen str =? 0 then Ret (0, str)
  else if (Zlen aid <? 5) || (Zlen aid >? 16) then Ret (1, str)
  else
    let* (r, (scheme, product)) := aid_get_info aid in
    if negb (r =? 0) then Ret (r, str) else
    let s := pick product product_names "" in
    let s := match s with "" => pick scheme scheme_names "" | _ => s end in
    match s with "" => Ret (1, str) | _ => copy_text (lit s) str end.

Definition capdu_string (e : env) (v str : list Z) : out (Z * list Z) := emv_capdu_get_string v str (j_id e).

(** The value of a field: its octets, or a NULL pointer with a length, as made from the entries of
    a Data Object List (tools/print_helpers.c:772-778).  The functions called with value and length
    give the result for an empty value if value is NULL. *)
Inductive value := Octets (v : list Z) | Null (n : nat).
Definition octets (x : value) : list Z := match x with Octets v => v | Null _ => [] end.
Definition vlen (x : value) : nat := match x with Octets v => length v | Null n => n end.

(** emv_strings.c:1261-1370 [emv_tlv_value_get_string] (StrModel.v for octets). *)
Definition value_string (f : format) (max : nat) (tag : Z) (x : value) (str : list Z) : out (Z * list Z) :=
  match x with
  | Octets v => tlv_value_get_string f max tag v str
  | Null n =>
    if (length str =? 0)%nat then Ret (0, str)
    else if (negb (max =? 0)%nat && (match f with FormatA | FormatAN | FormatANS => max <? n | FormatCN | FormatN => (max + 1) / 2 <? n end)%nat)
    then Ret (match f with FormatA | FormatAN | FormatANS => -2 | _ => -3 end, str)
    else if (negb (max =? 0)%nat && (length str <? max + 1)%nat) then Ret (-5, str)
    else if match f with FormatANS => tag =? 0x9F12 | _ => false end then UB                  (* memcpy from NULL *)
    else let* str := wr str 0 0 in Ret (-1, str)
  end.

(** enum emv_format_t (emv_strings.h:40-107). *)
Inductive kind := IsA | IsAN | IsANS | IsB | IsCN | IsN | IsVAR | IsDol | IsTagList.
(** What a case of the switch does with the value:
    [NoText]: return 0; [Value f max]: emv_tlv_value_get_string; [Whole f]: f(value, length, ...);
    [First f]: if (!value) return 0; f(value[0], ...); [CountryOr f max]: the lookup, then
    emv_tlv_value_get_string with format a if it failed or the text is empty; [DfName]: tag 84. *)
Inductive action :=
| NoText
| Value (f : format) (max : nat)
| Whole (f : list Z -> list Z -> out (Z * list Z))
| First (f : Z -> list Z -> out (Z * list Z))
| CountryOr (f : list Z -> list Z -> out (Z * list Z)) (max : nat)
| DfName.

Definition pse : list Z := lit "1PAY.SYS.DDF01".
Definition ppse : list Z := lit "2PAY.SYS.DDF01".
(** emv_strings.c:242-258.  strncmp gives 0 exactly for the name itself, which has no NUL. *)
Definition df_name_string (x : value) (str : list Z) : out (Z * list Z) :=
  let differs (name : list Z) : out bool :=
    if (vlen x =? length name)%nat then match x with Octets v => Ret (negb (list_eqb v name)) | Null _ => UB end else Ret false in
  let* a := differs pse in
  let* raw := (if a : bool then Ret true else differs ppse) in
  if raw : bool then
    if (vlen x <? length str)%nat then
      let* str := put str 0 (octets x) in let* str := wr str (vlen x) 0 in Ret (0, str)
    else Ret (0, str)
  else aid_string (octets x) str.

Definition run_action (tag : Z) (x : value) (a : action) (str : list Z) : out (Z * list Z) :=
  match a with
  | NoText => Ret (0, str)
  | Value f max => value_string f max tag x str
  | Whole f => f (octets x) str
  | First f => match x with Null _ => Ret (0, str) | Octets v => let* b := rd v 0 in f b str end
  | CountryOr f max =>
    let* (r, str) := f (octets x) str in
    if negb (r =? 0) || match str with c :: _ => c =? 0 | [] => false end then value_string FormatA max tag x str else Ret (0, str)
  | DfName => df_name_string x str
  end.

(** emv_strings.c:107-1118, 1138-1144, 1238-1243: the cases of the switch that depend on the tag only. *)
Definition cases (e : env) : list (Z * (string * kind * action)) :=
  [
   (0x42, ("Issuer Identification Number (IIN)", IsN, Value FormatN 6));
   (0x4F, ("Application Dedicated File (ADF) Name", IsB, Whole aid_string));
   (0x50, ("Application Label", IsANS, Value FormatANS 16));
   (0x56, ("Track 1 Data", IsANS, Value FormatANS 76));
   (0x57, ("Track 2 Equivalent Data", IsB, Whole track2_get_string));
   (0x5A, ("Application Primary Account Number (PAN)", IsCN, Value FormatCN 19));
   (0x61, ("Application Template", IsB, NoText));
   (0x6F, ("File Control Information (FCI) Template", IsVAR, NoText));
   (0x70, ("EMV Data Template", IsVAR, NoText));
   (0x71, ("Issuer Script Template 1", IsVAR, NoText));
   (0x72, ("Issuer Script Template 2", IsVAR, NoText));
   (0x73, ("Directory Discretionary Template", IsVAR, NoText));
   (0x77, ("Response Message Template Format 2", IsVAR, NoText));
   (0x80, ("Response Message Template Format 1", IsVAR, NoText));
   (0x81, ("Amount, Authorised (Binary)", IsB, Whole amount_get_string));
   (0x82, ("Application Interchange Profile (AIP)", IsB, Whole aip_list));
   (0x83, ("Command Template", IsVAR, NoText));
   (0x84, ("Dedicated File (DF) Name", IsB, DfName));
   (0x86, ("Issuer Script Command", IsVAR, Whole (capdu_string e)));
   (0x87, ("Application Priority Indicator", IsB, NoText));
   (0x88, ("Short File Identifier (SFI)", IsB, NoText));
   (0x89, ("Authorisation Code", IsANS, Value FormatANS 6));
   (0x8A, ("Authorisation Response Code", IsAN, Whole arc_string));
   (0x8C, ("Card Risk Management Data Object List 1 (CDOL1)", IsDol, NoText));
   (0x8D, ("Card Risk Management Data Object List 2 (CDOL2)", IsDol, NoText));
   (0x8E, ("Cardholder Verification Method (CVM) List", IsB, Whole (cvm_list_list (j_cond e))));
   (0x8F, ("Certification Authority Public Key (CAPK) Index", IsB, NoText));
   (0x90, ("Issuer Public Key Certificate", IsB, NoText));
   (0x91, ("Issuer Authentication Data", IsB, Whole (issuer_auth_list (j_arc e))));
   (0x92, ("Issuer Public Key Remainder", IsB, NoText));
   (0x93, ("Signed Static Application Data", IsB, NoText));
   (0x94, ("Application File Locator (AFL)", IsVAR, Whole afl_list));
   (0x95, ("Terminal Verification Results (TVR)", IsB, Whole tvr_list));
   (0x9A, ("Transaction Date", IsN, Whole date_get_string));
   (0x9B, ("Transaction Status Information (TSI)", IsB, Whole tsi_list));
   (0x9C, ("Transaction Type", IsN, First transaction_type_string));
   (0x9D, ("Directory Definition File (DDF) Name", IsB, NoText));
   (0xA5, ("File Control Information (FCI) Proprietary Template", IsVAR, NoText));
   (0x5F20, ("Cardholder Name", IsANS, Value FormatANS 26));
   (0x5F24, ("Application Expiration Date", IsN, Whole date_get_string));
   (0x5F25, ("Application Effective Date", IsN, Whole date_get_string));
   (0x5F28, ("Issuer Country Code", IsN, Whole (country_numeric_string e)));
   (0x5F2A, ("Transaction Currency Code", IsN, Whole (currency_numeric_string e)));
   (0x5F2D, ("Language Preference", IsAN, Whole (language_list e)));
   (0x5F30, ("Service Code", IsN, Value FormatN 3));
   (0x5F34, ("Application Primary Account Number (PAN) Sequence Number", IsN, NoText));
   (0x5F36, ("Transaction Currency Exponent", IsN, NoText));
   (0x5F50, ("Issuer URL", IsANS, Value FormatANS 0));
   (0x5F53, ("International Bank Account Number (IBAN)", IsVAR, Value FormatAN 34));
   (0x5F54, ("Bank Identifier Code (BIC)", IsVAR, Value FormatAN 11));
   (0x5F55, ("Issuer Country Code (alpha2 format)", IsA, CountryOr (country_alpha2_string e) 2));
   (0x5F56, ("Issuer Country Code (alpha3 format)", IsA, CountryOr (country_alpha3_string e) 3));
   (0x5F57, ("Account Type", IsN, First account_type_string));
   (0x9F01, ("Acquirer Identifier", IsN, Value FormatN 11));
   (0x9F02, ("Amount, Authorised (Numeric)", IsN, Value FormatN 12));
   (0x9F03, ("Amount, Other (Numeric)", IsN, Value FormatN 12));
   (0x9F04, ("Amount, Other (Binary)", IsB, Whole amount_get_string));
   (0x9F05, ("Application Discretionary Data", IsB, NoText));
   (0x9F06, ("Application Identifier (AID) - terminal", IsB, Whole aid_string));
   (0x9F07, ("Application Usage Control", IsB, Whole auc_list));
   (0x9F08, ("Application Version Number", IsB, NoText));
   (0x9F09, ("Application Version Number - terminal", IsB, NoText));
   (0x9F0A, ("Application Selection Registered Proprietary Data (ASRPD)", IsB, Whole asrpd_list));
   (0x9F0B, ("Cardholder Name Extended", IsANS, Value FormatANS 45));
   (0x9F0C, ("Issuer Identification Number Extended (IINE)", IsN, Value FormatN 8));
   (0x9F0D, ("Issuer Action Code (IAC) - Default", IsB, Whole tvr_list));
   (0x9F0E, ("Issuer Action Code (IAC) - Denial", IsB, Whole tvr_list));
   (0x9F0F, ("Issuer Action Code (IAC) - Online", IsB, Whole tvr_list));
   (0x9F10, ("Issuer Application Data", IsB, Whole iad_list));
   (0x9F11, ("Issuer Code Table Index", IsN, NoText));
   (0x9F12, ("Application Preferred Name", IsANS, Value FormatANS 16));
   (0x9F13, ("Last Online Application Transaction Counter (ATC) Register", IsB, NoText));
   (0x9F14, ("Lower Consecutive Offline Limit", IsB, NoText));
   (0x9F15, ("Merchant Category Code (MCC)", IsN, Whole (mcc_string e)));
   (0x9F16, ("Merchant Identifier", IsANS, Value FormatANS 15));
   (0x9F17, ("Personal Identification Number (PIN) Try Counter", IsB, NoText));
   (0x9F18, ("Issuer Script Identifier", IsB, NoText));
   (0x9F19, ("Token Requestor ID", IsN, NoText));
   (0x9F1A, ("Terminal Country Code", IsN, Whole (country_numeric_string e)));
   (0x9F1B, ("Terminal Floor Limit", IsB, Whole amount_get_string));
   (0x9F1C, ("Terminal Identification", IsAN, Value FormatAN 8));
   (0x9F1D, ("Terminal Risk Management Data", IsB, Whole trmd_list));
   (0x9F1E, ("Interface Device (IFD) Serial Number", IsAN, Value FormatAN 8));
   (0x9F1F, ("Track 1 Discretionary Data", IsANS, Value FormatANS 0));
   (0x9F20, ("Track 2 Discretionary Data", IsCN, Value FormatCN 0));
   (0x9F21, ("Transaction Time", IsN, Whole time_get_string));
   (0x9F22, ("Certification Authority Public Key (CAPK) Index", IsB, NoText));
   (0x9F23, ("Upper Consecutive Offline Limit", IsB, NoText));
   (0x9F24, ("Payment Account Reference (PAR)", IsAN, Value FormatAN 29));
   (0x9F25, ("Last 4 Digits of PAN", IsN, Value FormatN 4));
   (0x9F26, ("Application Cryptogram", IsB, NoText));
   (0x9F27, ("Cryptogram Information Data", IsB, First cid_list));
   (0x9F32, ("Issuer Public Key Exponent", IsB, NoText));
   (0x9F33, ("Terminal Capabilities", IsB, Whole term_caps_list));
   (0x9F34, ("Cardholder Verification Method (CVM) Results", IsB, Whole (cvm_results_list (j_cond e))));
   (0x9F35, ("Terminal Type", IsN, First term_type_list));
   (0x9F36, ("Application Transaction Counter (ATC)", IsB, NoText));
   (0x9F37, ("Unpredictable Number", IsB, NoText));
   (0x9F38, ("Processing Options Data Object List (PDOL)", IsDol, NoText));
   (0x9F39, ("Point-of-Service (POS) Entry Mode", IsN, First pos_entry_string));
   (0x9F3A, ("Amount, Reference Currency", IsB, Whole amount_get_string));
   (0x9F3B, ("Application Reference Currency", IsN, Whole (currency_list e)));
   (0x9F3C, ("Transaction Reference Currency", IsN, Whole (currency_numeric_string e)));
   (0x9F3D, ("Transaction Reference Currency Exponent", IsN, NoText));
   (0x9F40, ("Additional Terminal Capabilities", IsB, Whole addl_term_caps_list));
   (0x9F41, ("Transaction Sequence Counter", IsN, Value FormatN 8));
   (0x9F42, ("Application Currency Code", IsN, Whole (currency_numeric_string e)));
   (0x9F43, ("Application Reference Currency Exponent", IsN, NoText));
   (0x9F44, ("Application Currency Exponent", IsN, NoText));
   (0x9F45, ("Data Authentication Code", IsB, NoText));
   (0x9F46, ("Integrated Circuit Card (ICC) Public Key Certificate", IsB, NoText));
   (0x9F47, ("Integrated Circuit Card (ICC) Public Key Exponent", IsB, NoText));
   (0x9F48, ("Integrated Circuit Card (ICC) Public Key Remainder", IsB, NoText));
   (0x9F49, ("Dynamic Data Authentication Data Object List (DDOL)", IsDol, NoText));
   (0x9F4A, ("Static Data Authentication (SDA) Tag List", IsTagList, NoText));
   (0x9F4C, ("Integrated Circuit Card (ICC) Dynamic Number", IsB, NoText));
   (0x9F4D, ("Log Entry", IsB, NoText));
   (0x9F4E, ("Merchant Name and Location", IsANS, Value FormatANS 0));
   (0x9F6C, ("Card Transaction Qualifiers (CTQ)", IsB, Whole ctq_list));
   (0xBF0C, ("File Control Information (FCI) Issuer Discretionary Data", IsVAR, NoText))
  ].
(** tag_desc is not modelled. *)
Definition case_of (e : env) (tag : Z) : option (string * kind * action) :=
  match find (fun c => fst c =? tag) (cases e) with Some c => Some (snd c) | None => None end.

(** The conditions of tag 9F6E: emv_strings.c:1187-1193 and 1207-1220. *)
Definition visa_ffi (x : value) : out bool :=
  match x with
  | Octets v =>
    if negb (length v =? 4)%nat then Ret false else
    let* b0 := rd v 0 in let* b2 := rd v 2 in let* b3 := rd v 3 in
    Ret ((Z.land b0 0xE0 =? 0x20) && (b2 =? 0) && (b3 =? 0))
  | Null _ => Ret false
  end.
Definition amex_caps4 (x : value) : out bool :=
  match x with
  | Octets v =>
    if negb (length v =? 4)%nat then Ret false else
    let* b0 := rd v 0 in let* b1 := rd v 1 in let* b2 := rd v 2 in let* b3 := rd v 3 in
    Ret ((Z.land b0 0x20 =? 0) && negb (Z.land b0 0x10 =? 0) && negb (Z.land b0 0x08 =? 0) && (Z.land b0 0x03 =? 0) &&
         negb (Z.land b1 0x80 =? 0) && (Z.land b1 0x0F =? 0) && (Z.land b2 0x3F =? 0) && (Z.land b3 0x18 =? 0) &&
         negb (Z.land b3 0x07 =? 0))
  | Null _ => Ret false
  end.

(** What the switch decides on: name (NULL if not set), format and what is done; [None] is the default
    case (format b, return 1).  emv_strings.c:1120-1136 (9F66), 1146-1170 (9F6D), 1172-1236 (9F6E). *)
Definition choose (e : env) (tag : Z) (x : value) : out (option (string * kind * action)) :=
  if tag =? 0x9F66 then
    Ret (if (vlen x =? 4)%nat then Some ("Terminal Transaction Qualifiers (TTQ)", IsB, Whole ttq_list) else None)
  else if tag =? 0x9F6D then
    Ret (if (vlen x =? 1)%nat then Some ("Contactless Reader Capabilities", IsB, First amex_caps_string) else None)
  else if tag =? 0x9F6E then
    if ((4 <? vlen x) && (vlen x <=? 32))%nat then Ret (Some ("Third Party Data", IsB, Whole (tpd_list (tpd_country e)))) else
    let* b := visa_ffi x in
    if b : bool then Ret (Some ("Form Factor Indicator (FFI)", IsB, Whole ffi_list)) else
    let* b := amex_caps4 x in
    if b : bool then Ret (Some ("Enhanced Contactless Reader Capabilities", IsB, Whole enh_caps_list)) else Ret None
  else Ret (case_of e tag).

(** emv_strings.c:90-1249 [emv_tlv_get_info]; tlv and info not NULL.  The result is the return value,
    the name, the format and the buffer. *)
Definition tlv_get_info (e : env) (tag : Z) (x : value) (str : list Z) : out (Z * option string * kind * list Z) :=
  let* str := (match str with [] => Ret [] | _ => wr str 0 0 end) in
  let* c := choose e tag x in
  match c with
  | None => Ret (1, None, IsB, str)
  | Some (name, k, a) => let* (r, str) := run_action tag x a str in Ret (r, Some name, k, str)
  end.
