(** Specification of the description of fields. *)
From Coq Require Import String.
From Verif Require Import Base StrModel FieldsModel TlvSpec BerSpec FieldsSpec StrSpec CapduSpec FlagsSpec.
Open Scope string_scope.
Open Scope Z_scope.
Open Scope list_scope.
Notation length := List.length.

(** The tags and names of the comments of src/emv_tags.h ("EMV tag 42 Issuer Identification Number
    (IIN). Template ..."), except that 70 is called "Data Template" there and 9F10 has "(IAD)".
    9F66, 9F6D and 9F6E, which the kernels use differently, are below. *)
Definition documented : list (Z * string) :=
  [
   (0x42, "Issuer Identification Number (IIN)");
   (0x4F, "Application Dedicated File (ADF) Name");
   (0x50, "Application Label");
   (0x56, "Track 1 Data");
   (0x57, "Track 2 Equivalent Data");
   (0x5A, "Application Primary Account Number (PAN)");
   (0x61, "Application Template");
   (0x6F, "File Control Information (FCI) Template");
   (0x70, "EMV Data Template");
   (0x71, "Issuer Script Template 1");
   (0x72, "Issuer Script Template 2");
   (0x73, "Directory Discretionary Template");
   (0x77, "Response Message Template Format 2");
   (0x80, "Response Message Template Format 1");
   (0x81, "Amount, Authorised (Binary)");
   (0x82, "Application Interchange Profile (AIP)");
   (0x83, "Command Template");
   (0x84, "Dedicated File (DF) Name");
   (0x86, "Issuer Script Command");
   (0x87, "Application Priority Indicator");
   (0x88, "Short File Identifier (SFI)");
   (0x89, "Authorisation Code");
   (0x8A, "Authorisation Response Code");
   (0x8C, "Card Risk Management Data Object List 1 (CDOL1)");
   (0x8D, "Card Risk Management Data Object List 2 (CDOL2)");
   (0x8E, "Cardholder Verification Method (CVM) List");
   (0x8F, "Certification Authority Public Key (CAPK) Index");
   (0x90, "Issuer Public Key Certificate");
   (0x91, "Issuer Authentication Data");
   (0x92, "Issuer Public Key Remainder");
   (0x93, "Signed Static Application Data");
   (0x94, "Application File Locator (AFL)");
   (0x95, "Terminal Verification Results (TVR)");
   (0x9A, "Transaction Date");
   (0x9B, "Transaction Status Information (TSI)");
   (0x9C, "Transaction Type");
   (0x9D, "Directory Definition File (DDF) Name");
   (0xA5, "File Control Information (FCI) Proprietary Template");
   (0x5F20, "Cardholder Name");
   (0x5F24, "Application Expiration Date");
   (0x5F25, "Application Effective Date");
   (0x5F28, "Issuer Country Code");
   (0x5F2A, "Transaction Currency Code");
   (0x5F2D, "Language Preference");
   (0x5F30, "Service Code");
   (0x5F34, "Application Primary Account Number (PAN) Sequence Number");
   (0x5F36, "Transaction Currency Exponent");
   (0x5F50, "Issuer URL");
   (0x5F53, "International Bank Account Number (IBAN)");
   (0x5F54, "Bank Identifier Code (BIC)");
   (0x5F55, "Issuer Country Code (alpha2 format)");
   (0x5F56, "Issuer Country Code (alpha3 format)");
   (0x5F57, "Account Type");
   (0x9F01, "Acquirer Identifier");
   (0x9F02, "Amount, Authorised (Numeric)");
   (0x9F03, "Amount, Other (Numeric)");
   (0x9F04, "Amount, Other (Binary)");
   (0x9F05, "Application Discretionary Data");
   (0x9F06, "Application Identifier (AID) - terminal");
   (0x9F07, "Application Usage Control");
   (0x9F08, "Application Version Number");
   (0x9F09, "Application Version Number - terminal");
   (0x9F0A, "Application Selection Registered Proprietary Data (ASRPD)");
   (0x9F0B, "Cardholder Name Extended");
   (0x9F0C, "Issuer Identification Number Extended (IINE)");
   (0x9F0D, "Issuer Action Code (IAC) - Default");
   (0x9F0E, "Issuer Action Code (IAC) - Denial");
   (0x9F0F, "Issuer Action Code (IAC) - Online");
   (0x9F10, "Issuer Application Data");
   (0x9F11, "Issuer Code Table Index");
   (0x9F12, "Application Preferred Name");
   (0x9F13, "Last Online Application Transaction Counter (ATC) Register");
   (0x9F14, "Lower Consecutive Offline Limit");
   (0x9F15, "Merchant Category Code (MCC)");
   (0x9F16, "Merchant Identifier");
   (0x9F17, "Personal Identification Number (PIN) Try Counter");
   (0x9F18, "Issuer Script Identifier");
   (0x9F19, "Token Requestor ID");
   (0x9F1A, "Terminal Country Code");
   (0x9F1B, "Terminal Floor Limit");
   (0x9F1C, "Terminal Identification");
   (0x9F1D, "Terminal Risk Management Data");
   (0x9F1E, "Interface Device (IFD) Serial Number");
   (0x9F1F, "Track 1 Discretionary Data");
   (0x9F20, "Track 2 Discretionary Data");
   (0x9F21, "Transaction Time");
   (0x9F22, "Certification Authority Public Key (CAPK) Index");
   (0x9F23, "Upper Consecutive Offline Limit");
   (0x9F24, "Payment Account Reference (PAR)");
   (0x9F25, "Last 4 Digits of PAN");
   (0x9F26, "Application Cryptogram");
   (0x9F27, "Cryptogram Information Data");
   (0x9F32, "Issuer Public Key Exponent");
   (0x9F33, "Terminal Capabilities");
   (0x9F34, "Cardholder Verification Method (CVM) Results");
   (0x9F35, "Terminal Type");
   (0x9F36, "Application Transaction Counter (ATC)");
   (0x9F37, "Unpredictable Number");
   (0x9F38, "Processing Options Data Object List (PDOL)");
   (0x9F39, "Point-of-Service (POS) Entry Mode");
   (0x9F3A, "Amount, Reference Currency");
   (0x9F3B, "Application Reference Currency");
   (0x9F3C, "Transaction Reference Currency");
   (0x9F3D, "Transaction Reference Currency Exponent");
   (0x9F40, "Additional Terminal Capabilities");
   (0x9F41, "Transaction Sequence Counter");
   (0x9F42, "Application Currency Code");
   (0x9F43, "Application Reference Currency Exponent");
   (0x9F44, "Application Currency Exponent");
   (0x9F45, "Data Authentication Code");
   (0x9F46, "Integrated Circuit Card (ICC) Public Key Certificate");
   (0x9F47, "Integrated Circuit Card (ICC) Public Key Exponent");
   (0x9F48, "Integrated Circuit Card (ICC) Public Key Remainder");
   (0x9F49, "Dynamic Data Authentication Data Object List (DDOL)");
   (0x9F4A, "Static Data Authentication (SDA) Tag List");
   (0x9F4C, "Integrated Circuit Card (ICC) Dynamic Number");
   (0x9F4D, "Log Entry");
   (0x9F4E, "Merchant Name and Location");
   (0x9F6C, "Card Transaction Qualifiers (CTQ)");
   (0xBF0C, "File Control Information (FCI) Issuer Discretionary Data")
  ].
(** Tag 9F6E with four octets: version 1 of the Form Factor Indicator (Visa), and Enhanced Contactless
    Reader Capabilities (American Express) with its mandatory bits. *)
Definition is_ffi (v : list Z) : Prop :=
  length v = 4%nat /\ range (octet v 1) 8 6 = 1 /\ octet v 3 = 0 /\ octet v 4 = 0.
Definition is_reader_caps (v : list Z) : Prop :=
  length v = 4%nat /\ bit (octet v 1) 6 = false /\ bit (octet v 1) 5 = true /\ bit (octet v 1) 4 = true /\
  range (octet v 1) 2 1 = 0 /\ bit (octet v 2) 8 = true /\ range (octet v 2) 4 1 = 0 /\
  range (octet v 3) 6 1 = 0 /\ range (octet v 4) 5 4 = 0 /\ range (octet v 4) 3 1 <> 0.
Inductive field_name (tag : Z) (v : list Z) : string -> Prop :=
| fn_documented s : In (tag, s) documented -> field_name tag v s
| fn_ttq : tag = 0x9F66 -> length v = 4%nat -> field_name tag v "Terminal Transaction Qualifiers (TTQ)"
| fn_amex : tag = 0x9F6D -> length v = 1%nat -> field_name tag v "Contactless Reader Capabilities"
| fn_tpd : tag = 0x9F6E -> (5 <= length v <= 32)%nat -> field_name tag v "Third Party Data"
| fn_ffi : tag = 0x9F6E -> is_ffi v -> field_name tag v "Form Factor Indicator (FFI)"
| fn_caps : tag = 0x9F6E -> is_reader_caps v -> field_name tag v "Enhanced Contactless Reader Capabilities".
(** An entry of a Data Object List has a tag and a length only. *)
Inductive entry_name (tag : Z) (n : nat) : string -> Prop :=
| en_documented s : In (tag, s) documented -> entry_name tag n s
| en_ttq : tag = 0x9F66 -> n = 4%nat -> entry_name tag n "Terminal Transaction Qualifiers (TTQ)"
| en_amex : tag = 0x9F6D -> n = 1%nat -> entry_name tag n "Contactless Reader Capabilities"
| en_tpd : tag = 0x9F6E -> (5 <= n <= 32)%nat -> entry_name tag n "Third Party Data".

(** The fields for which memory outside the value or the buffer is accessed: codes of one octet
    without it, dates and times, track 2 data that does not fit the buffer, truncated commands, and
    third party data without the second octet of its device type. *)
Definition stray_field (tag : Z) (v str : list Z) : Prop :=
  (In tag [0x9C; 0x5F57; 0x9F27; 0x9F35; 0x9F39] /\ v = []) \/
  (In tag [0x9A; 0x5F24; 0x5F25] /\ bcd v /\ length v = 3%nat /\ (11 <= length str)%nat) \/
  (tag = 0x9F21 /\ bcd v /\ length v = 3%nat /\ (9 <= length str)%nat) \/
  (tag = 0x57 /\ (length str <= length (before_pad (nibbles v)))%nat) \/
  (tag = 0x86 /\ (4 <= length str)%nat /\
     ((length v = 1%nat /\ hd 0 v <> 0xFF) \/ (2 <= length v < 4)%nat /\ 0x80 <= hd 0 v < 0xFF /\ nth 1 v 0 = 0xCA)) \/
  (tag = 0x9F6E /\ length v = 5%nat /\ nth 2 v 0 < 128).
(** Numbers whose digits need not fit the buffer. *)
Definition number_tags : list Z := [0x81; 0x9F04; 0x9F1B; 0x9F3A; 0x5F30].

(** Names of applications: registered product identifiers (prefixes of the AID), and the registered
    application providers for all others. *)
Definition aid_products : list (list Z * string) :=
  [([0xA0;0;0;0;3;0x10;0x10], "Visa Credit/Debit"); ([0xA0;0;0;0;3;0x20;0x10], "Visa Electron");
   ([0xA0;0;0;0;3;0x20;0x20], "V Pay"); ([0xA0;0;0;0;3;0x80;0x10], "Visa Plus"); ([0xA0;0;0;0;0x98], "Visa USA Debit");
   ([0xA0;0;0;0;4;0x10;0x10], "Mastercard Credit/Debit"); ([0xA0;0;0;0;4;0x30;0x60], "Maestro");
   ([0xA0;0;0;0;4;0x60;0x00], "Mastercard Cirrus"); ([0xA0;0;0;0;4;0x22;0x03], "Mastercard USA Debit");
   ([0xA0;0;0;0;5], "Maestro UK"); ([0xB0;0x12;0x34;0x56;0x78], "Mastercard Test Card");
   ([0xA0;0;0;0;0x25], "American Express Credit/Debit"); ([0xA0;0;0;7;0x90], "American Express (China Credit/Debit)");
   ([0xA0;0;0;1;0x52;0x30;0x10], "Discover Card"); ([0xA0;0;0;1;0x52;0x40;0x10], "Discover USA Debit"); ([0xA0;0;0;3;0x24], "Discover ZIP");
   ([0xA0;0;0;0;0x42;0x10;0x10], "Cartes Bancaires (CB) Credit/Debit"); ([0xA0;0;0;0;0x42;0x20;0x10], "Cartes Bancaires (CB) Debit");
   ([0xA0;0;0;1;0x21;0x47;0x11], "Visa/Dankort"); ([0xA0;0;0;1;0x21;0x47;0x12], "Dankort (J/Speedy)");
   ([0xA0;0;0;3;0x33;1;1;1], "UnionPay Debit"); ([0xA0;0;0;3;0x33;1;1;2], "UnionPay Credit");
   ([0xA0;0;0;3;0x33;1;1;3], "UnionPay Quasi-credit"); ([0xA0;0;0;3;0x33;1;1;6], "UnionPay Electronic Cash");
   ([0xA0;0;0;3;0x33;1;1;8], "UnionPay USA Debit");
   ([0xA0;0;0;3;0x37;0x10;0x10;0], "GIM-UEMOA Standard"); ([0xA0;0;0;3;0x37;0x10;0x10;1], "GIM-UEMOA Prepaye Online");
   ([0xA0;0;0;3;0x37;0x10;0x20;0], "GIM-UEMOA Classic"); ([0xA0;0;0;3;0x37;0x10;0x20;1], "GIM-UEMOA Prepaye Possibile Offline");
   ([0xA0;0;0;3;0x37;0x30;0x10;0], "GIM-UEMOA Retrait"); ([0xA0;0;0;3;0x37;0x60;0x10;1], "GIM-UEMOA Porte Monnaie Electronique");
   ([0xA0;0;0;3;0x59;0x10;0x10;0x02;0x80;0x01], "Deutsche Kreditwirtschaft (DK) Girocard");
   ([0xA0;0;0;3;0x84;0x10], "eftpos (Australia) savings"); ([0xA0;0;0;3;0x84;0x20], "eftpos (Australia) cheque");
   ([0xA0;0;0;6;0x58;0x10;0x10], "Mir Credit"); ([0xA0;0;0;6;0x58;0x20;0x10], "Mir Debit")].
Definition jcb : list Z := [0xA0;0;0;0;0x65].
Definition aid_providers : list (list Z * string) :=
  [([0xA0;0;0;0;3], "Visa"); ([0xA0;0;0;0;4], "Mastercard"); ([0xA0;0;0;1;0x52], "Discover"); ([0xA0;0;0;0;0x42], "Cartes Bancaires (CB)");
   (jcb, "JCB"); ([0xA0;0;0;1;0x21], "Dankort"); ([0xA0;0;0;3;0x33], "UnionPay"); ([0xA0;0;0;3;0x37], "GIM-UEMOA");
   ([0xA0;0;0;3;0x71], "Verve"); ([0xA0;0;0;3;0x84], "eftpos (Australia)"); ([0xA0;0;0;5;0x24], "RuPay"); ([0xA0;0;0;6;0x58], "Mir");
   ([0xA0;0;0;7;0x32], "Meeza")].
Inductive aid_text (aid : list Z) : string -> Prop :=
| at_product p t : In (p, t) aid_products -> starts_with p aid -> aid_text aid t
| at_provider p t : In (p, t) aid_providers -> starts_with p aid ->
    (forall q s, In (q, s) aid_products -> ~ starts_with q aid) -> aid_text aid t.

(** Names of the payment system environments. *)
Definition env_names : list (list Z) := [lit "1PAY.SYS.DDF01"; lit "2PAY.SYS.DDF01"].

(** Numeric fields (format n) with their greatest number of digits, and binary amounts. *)
Definition numeric_fields : list (Z * nat) :=
  [(0x42, 6%nat); (0x5F30, 3%nat); (0x9F01, 11%nat); (0x9F02, 12%nat); (0x9F03, 12%nat); (0x9F0C, 8%nat); (0x9F25, 4%nat); (0x9F41, 8%nat)].
Definition binary_amounts : list Z := [0x81; 0x9F04; 0x9F1B; 0x9F3A].

(** The buffer starts with a NUL and is otherwise as it was. *)
Definition emptied (str : list Z) : list Z := match str with [] => [] | _ :: t => 0 :: t end.

(** ** Codes that are looked up *)
Definition named (o : option (list Z)) : list Z := match o with Some s => s | None => [] end.
Definition lower (c : Z) : Z := if (65 <=? c) && (c <=? 90) then c + 32 else c.
(** The texts of consecutive pairs of octets, and the text of a code in a list. *)
Fixpoint pairs (f : list Z -> list Z) (v : list Z) : list (list Z) :=
  match v with a :: b :: v => f [a; b] :: pairs f v | _ => [] end.
Definition list_text (o : option (list Z)) : list Z := match o with Some (c :: s) => firstn 127 (c :: s) | _ => lit "Unknown" end.
(** A text without NUL. *)
Definition no_nul (s : list Z) : Prop := Forall (fun c => c <> 0) s.
Definition texts_only {A} (look : A -> option (list Z)) : Prop := forall x s, look x = Some s -> no_nul s.
(** A numeric code of four digits. *)
Definition numeric_code (v : list Z) : Prop := bcd v /\ length v = 2%nat.
(** Tags with codes. *)
Definition country_tags : list Z := [0x5F28; 0x9F1A].
Definition currency_tags : list Z := [0x5F2A; 0x9F3C; 0x9F42].
(** Numeric fields that are identifiers or codes, whose leading zeros matter. *)
Definition digit_fields : list (Z * nat) := [(0x42, 6%nat); (0x5F30, 3%nat); (0x9F01, 11%nat); (0x9F0C, 8%nat); (0x9F25, 4%nat)].
Definition letter (c : Z) : Prop := 65 <= c <= 90 \/ 97 <= c <= 122.
(** Sizes of the local arrays. *)
Definition array_sizes (text arc cond id : list Z) : Prop :=
  length text = 128%nat /\ length arc = 3%nat /\ length cond = 128%nat /\ length id = 511%nat.
