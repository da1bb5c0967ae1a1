(** Model of tools/emv-decode.c: the command line and what main writes to standard output and standard
    error.  emv_strings_init succeeds; the lookups are arbitrary functions. *)
From Coq Require Import String.
From Verif Require Import Base BerModel TlvModel StrModel CapduModel FlagsModel AtrModel Iso8859Model InfoModel ToolsModel PrintModel BerTextModel.
Open Scope string_scope.
Open Scope Z_scope.
Open Scope list_scope.
Notation length := List.length.

(** emv-decode.c:50-84: the decoding options. *)
Inductive mode :=
| MAtr | MSw1Sw2 | MBer | MTlv | MDol | MTagList | MMcc | MTermType | MTermCaps | MAddlTermCaps | MCvmList | MCvmResults | MTvr | MTsi | MIad | MTtq | MCtq
| MAmexReader | MThirdParty | MFormFactor | MAmexEnhanced | MRiskManagement | MCountry | MCurrency | MLanguage | MIso8859 (page : Z).

(** The lookups that [env] does not have. *)
Record codes := mkCodes { c_env : env; currency_alpha3 : list Z -> option (list Z); language_alpha3 : list Z -> option (list Z) }.

(** Standard output and standard error. *)
Definition prints (s : list Z) : out (list Z * list Z) := Ret (s, []).
Definition complains (t : string) : out (list Z * list Z) := Ret ([], lit t ++ newline).

(** The cases for lists: length check, call, return value, printf("%s", str). *)
Definition list_mode (ok : bool) (wrong : string) (call : out (Z * list Z)) (failed : string) : out (list Z * list Z) :=
  if negb ok then complains wrong
  else let* (r, str) := call in if negb (r =? 0) then complains failed else let* s := p_s str in prints s.

(** strtoul(arg, &endptr, 10) for a string of up to 3 chars: the value as unsigned int and what is at endptr. *)
Fixpoint dec_digits (s : list Z) (v : Z) : Z * list Z :=
  match s with c :: t => if (0x30 <=? c) && (c <=? 0x39) then dec_digits t (v * 10 + (c - 0x30)) else (v, s) | [] => (v, []) end.
Fixpoint skip_space (s : list Z) : list Z := match s with c :: t => if is_space c then skip_space t else s | [] => [] end.
Definition strtoul10 (s : list Z) : Z * list Z :=
  let t := skip_space s in
  let '(neg, t) := match t with c :: t' => if c =? 0x2D then (true, t') else if c =? 0x2B then (false, t') else (false, t) | [] => (false, []) end in
  match t with
  | c :: _ => if (0x30 <=? c) && (c <=? 0x39) then let '(v, r) := dec_digits t 0 in (u32 (if neg then - v else v), r) else (0, s)
  | [] => (0, s)
  end.
(** emv-decode.c:800-815 and 834-845: lookup by number if the lookup by letters failed. *)
Definition by_number (arg : list Z) (look : Z -> option (list Z)) (invalid : string) : out (list Z * list Z) :=
  let '(v, r) := strtoul10 arg in
  match arg, r with
  | [], _ => complains invalid
  | _, _ :: _ => complains invalid
  | _, [] => match look v with None => complains "Unknown" | Some s => prints (s ++ newline) end
  end.
(** emv-decode.c:786-822 *)
Definition country_mode (c : codes) (arg : list Z) : out (list Z * list Z) :=
  let e := c_env c in
  if negb (Zlen arg =? 2) && negb (Zlen arg =? 3) then complains "ISO 3166-1 country code must be alpha-2, alpha-3 or 3-digit numeric code"
  else match (if Zlen arg =? 2 then by_alpha2 e arg else by_alpha3 e arg) with
  | Some s => prints (s ++ newline)
  | None => by_number arg (by_numeric e) "Invalid ISO 3166-1 country code"
  end.
(** emv-decode.c:824-855 *)
Definition currency_mode (c : codes) (arg : list Z) : out (list Z * list Z) :=
  if negb (Zlen arg =? 3) then complains "ISO 4217 currency code must be alpha-3 or 3-digit numeric code"
  else match currency_alpha3 c arg with
  | Some s => prints (s ++ newline)
  | None => by_number arg (currency_by (c_env c)) "Invalid ISO 4217 currency code"
  end.
(** emv-decode.c:857-880 *)
Definition language_mode (c : codes) (arg : list Z) : out (list Z * list Z) :=
  if negb (Zlen arg =? 2) && negb (Zlen arg =? 3) then complains "ISO 639 currency code must be alpha-2 or alpha-3 code"
  else match (if Zlen arg =? 2 then language_by (c_env c) arg else language_alpha3 c arg) with
  | Some s => prints (s ++ newline)
  | None => complains "Unknown"
  end.
(** emv-decode.c:882-918; the return value of iso8859_to_utf8 is printed in decimal. *)
Definition iso8859_mode (page : Z) (data : list Z) : out (list Z * list Z) :=
  if negb (iso8859_is_supported page) then Ret ([], lit "ISO8859-" ++ p_dec page ++ lit " not supported" ++ newline)
  else
    let* (r, utf8) := iso8859_to_utf8 page data (repeat 0 2048) in
    let* c := rd utf8 0 in
    if negb (r =? 0) && negb (c =? 0) then Ret ([], lit "iso8859_to_utf8() failed; r=" ++ p_int r ++ newline)
    else let* s := p_s utf8 in prints (s ++ newline).
(** emv-decode.c:439-785: [short] is str[1024] and [long] is str[2048]; [beyond] is what follows the
    ATR's historical bytes in memory. *)
Definition decode (c : codes) (short long beyond : list Z) (pad : bool) (m : mode) (data arg : list Z) : out (list Z * list Z) :=
  let e := c_env c in
  let n := Zlen data in
  match m with
  | MAtr =>
    if n <? 2 then complains "ATR may not have less than 4 digits (thus 2 bytes)"
    else if 33 <? n then complains "ATR may not have more than 66 digits (thus 33 bytes)"
    else
      let* r := atr_parse data in
      match r with inl _ => complains "Failed to parse ATR" | inr x => let* s := print_atr x beyond short in prints s end
  | MSw1Sw2 =>
    if negb (n =? 2) then complains "SW1SW2 must consist of 4 hex digits"
    else let* a := rd data 0 in let* b := rd data 1 in let* s := print_sw1sw2 a b short in prints s
  | MBer => let* s := print_ber_text (lit "  ") data 0 pad in prints s
  | MTlv => let* s := print_emv_text e (lit "  ") long data 0 pad in prints s
  | MDol => let* s := print_emv_dol e data (lit "  ") 0 in prints s
  | MTagList => let* s := print_emv_tag_list e data (lit "  ") 0 in prints s
  | MMcc =>
    if negb (n =? 2) then complains "Merchant Category Code (MCC) must be 4-digit numeric code"
    else
      let* (r, str) := mcc_string e data short in
      if negb (r =? 0) then complains "Failed to parse Merchant Category Code (MCC)"
      else
        let* c0 := rd str 0 in
        if c0 =? 0 then complains "Unknown" else let* s := p_s str in prints (s ++ newline)
  | MTermType => list_mode (n =? 1) "EMV Terminal Type (field 9F35) must be exactly 1 byte" (let* b := rd data 0 in term_type_list b short) "Failed to parse EMV Terminal Type (field 9F35)"
  | MTermCaps => list_mode (n =? 3) "EMV Terminal Capabilities (field 9F33) must be exactly 3 bytes" (term_caps_list data short) "Failed to parse EMV Terminal Capabilities (field 9F33)"
  | MAddlTermCaps => list_mode (n =? 5) "EMV Additional Terminal Capabilities (field 9F40) must be exactly 5 bytes" (addl_term_caps_list data short)
      "Failed to parse EMV Additional Terminal Capabilities (field 9F40)"
  | MCvmList => list_mode true "" (cvm_list_list (j_cond e) data long) "Failed to parse EMV Cardholder Verification Method (CVM) List (field 8E)"
  | MCvmResults => list_mode (n =? 3) "EMV Cardholder Verification Method (CVM) Results (field 9F34) must be exactly 3 bytes" (cvm_results_list (j_cond e) data short)
      "Failed to parse EMV Cardholder Verification Method (CVM) Results (field 9F34)"
  | MTvr => list_mode (n =? 5) "EMV Terminal Verification Results (field 95) must be exactly 5 bytes" (tvr_list data long) "Failed to parse EMV Terminal Verification Results (field 95)"
  | MTsi => list_mode (n =? 2) "EMV Transaction Status Information (field 9B) must be exactly 2 bytes" (tsi_list data long) "Failed to parse EMV Transaction Status Information (field 9B)"
  | MIad => list_mode (n <=? 32) "EMV Issuer Application Data (field 9F10) may be up to 32 bytes" (iad_list data long) "Failed to parse EMV Issuer Application Data (field 9F10)"
  | MTtq => list_mode (n =? 4) "EMV Terminal Transaction Qualifiers (field 9F66) must be exactly 4 bytes" (ttq_list data long) "Failed to parse EMV Terminal Transaction Qualifiers (field 9F66)"
  | MCtq => list_mode (n =? 2) "EMV Card Transaction Qualifiers (field 9F6C) must be exactly 2 bytes" (ctq_list data long) "Failed to parse EMV Card Transaction Qualifiers (field 9F6C)"
  | MAmexReader =>
    if negb (n =? 1) then complains "Amex Contactless Reader Capabilities (field 9F6D) must be exactly 1 byte"
    else
      let* b := rd data 0 in
      let* (r, str) := amex_caps_string b short in
      if negb (r =? 0) then complains "Failed to parse Amex Contactless Reader Capabilities (field 9F6D)" else let* s := p_s str in prints (s ++ newline)
  | MThirdParty => list_mode ((5 <=? n) && (n <=? 32)) "Mastercard Third Party Data (field 9F6E) must be 5 to 32 bytes" (tpd_list (tpd_country e) data long)
      "Failed to parse Mastercard Third Party Data (field 9F6E)"
  | MFormFactor => list_mode (n =? 4) "Visa Form Factor Indicator (field 9F6E) must be exactly 4 bytes" (ffi_list data long) "Failed to parse Visa Form Factor Indicator (field 9F6E)"
  | MAmexEnhanced => list_mode (n =? 4) "Amex Enhanced Contactless Reader Capabilities (field 9F6E) must be exactly 4 bytes" (enh_caps_list data long)
      "Failed to parse Amex Enhanced Contactless Reader Capabilities (field 9F6E)"
  | MRiskManagement => list_mode (n =? 8) "Terminal Risk Management Data (field 9F1D) must be exactly 8 bytes" (trmd_list data long) "Failed to parse Terminal Risk Management Data (field 9F1D)"
  | MCountry => country_mode c arg
  | MCurrency => currency_mode c arg
  | MLanguage => language_mode c arg
  | MIso8859 page => iso8859_mode page data
  end.

(** ** The command line *)
(** What argp passes to the parser: options, arguments after them, and the end without arguments. *)
Inductive opt := Decoding (m : mode) | IgnorePadding.
Inductive argument := AOption (o : opt) | AInput (a : list Z) | ANone.
(** The variables at emv-decode.c:42-46 and 98 and what is left to read from standard input (None: reading fails). *)
Record state := mkState { s_mode : option mode; s_data : list Z; s_arg : list Z; s_pad : bool; s_stdin : option (list Z) }.
(** argp_error prints the message and exits. *)
Inductive step := Next (s : state) | Usage (t : string).
Definition is_lookup (m : option mode) : bool := match m with Some MCountry | Some MCurrency | Some MLanguage => true | _ => false end.
(** emv-decode.c:195-333 [argp_parser_helper] without --iso8859-x, --version and the paths.  [junk] gives
    what malloc returns. *)
Definition parse_argument (junk : nat -> list Z) (s : state) (x : argument) : out step :=
  match x with
  | AInput a =>
    if is_lookup (s_mode s) then Ret (Next (mkState (s_mode s) (s_data s) a (s_pad s) (s_stdin s)))
    else if (length a =? 1)%nat && (hd 0 a =? 0x2D) then
      match s_stdin s with
      | None | Some [] => Ret (Usage "Failed to read INPUT from stdin")
      | Some d => Ret (Next (mkState (s_mode s) d (s_arg s) (s_pad s) (Some [])))
      end
    else if (length a <? 2)%nat then Ret (Usage "INPUT must consist of at least 1 byte (thus 2 hex digits)")
    else
      let* (r, buf, n) := parse_arg a (junk ((length a + 1) / 2)%nat) in
      if r <? 0 then Ret (Usage "INPUT must consist of hex digits")
      else if 0 <? r then Ret (Usage "INPUT must have even number of hex digits")
      else Ret (Next (mkState (s_mode s) (firstn n buf) (s_arg s) (s_pad s) (s_stdin s)))
  | ANone => Ret (Usage "INPUT is missing")
  | AOption (Decoding m) =>
    match s_mode s with
    | Some _ => Ret (Usage "Only one decoding OPTION may be specified")
    | None => Ret (Next (mkState (Some m) (s_data s) (s_arg s) (s_pad s) (s_stdin s)))
    end
  | AOption IgnorePadding => Ret (Next (mkState (s_mode s) (s_data s) (s_arg s) true (s_stdin s)))
  end.
Fixpoint parse_arguments (junk : nat -> list Z) (s : state) (l : list argument) : out step :=
  match l with
  | [] => Ret (Next s)
  | x :: l => let* y := parse_argument junk s x in match y with Next s => parse_arguments junk s l | Usage t => Ret (Usage t) end
  end.
(** argp (GNU) passes the options first, then the arguments. *)
Definition arguments (opts : list opt) (args : list (list Z)) : list argument :=
  map AOption opts ++ match args with [] => [ANone] | _ => map AInput args end.
(** emv-decode.c:410-931 [main], if there is at least one argument. *)
Inductive result := Printed (stdout stderr : list Z) | Help | Refused (t : string).
Definition emv_decode (c : codes) (short long beyond : list Z) (junk : nat -> list Z) (stdin : option (list Z)) (opts : list opt) (args : list (list Z)) : out result :=
  let* x := parse_arguments junk (mkState None [] [] false stdin) (arguments opts args) in
  match x with
  | Usage t => Ret (Refused t)
  | Next s =>
    match s_mode s with
    | None => Ret Help
    | Some m => let* (a, b) := decode c short long beyond (s_pad s) m (s_data s) (s_arg s) in Ret (Printed a b)
    end
  end.
