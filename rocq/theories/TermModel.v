(** Model of tools/emv-tool.c: the command line, the data a transaction starts with, the list of readers
    and main's transaction.  argp_error ends the program.  emv_strings_init and emv_debug_init succeed. *)
From Coq Require Import String.
From Verif Require Import Base BerModel TlvListModel TlvModel StrModel CapduModel FlagsModel AtrModel ToolsModel PrintModel DecodeModel PcscModel AppModel TalModel EmvModel.
Open Scope string_scope.
Open Scope Z_scope.
Open Scope list_scope.
Notation length := List.length.

(** ** The command line *)
(** emv-tool.c:95-119: the variables set by the options. *)
Record settings := mkSettings { o_type : Z; o_amount : Z; o_other : Z; o_verbose : bool; o_sources : Z; o_level : Z }.
Definition settings0 : settings := mkSettings 0x00 0 0 false 0xFF 2.

(** C's strtoul with 64 bit long: value and what is at endptr.  Leading white space, a sign and (base 16) 0x are
    accepted; a value that does not fit is ULONG_MAX. *)
Definition ULONG_MAX : Z := 18446744073709551615.
Definition digit_in (base c : Z) : option Z :=
  let d := if (0x30 <=? c) && (c <=? 0x39) then c - 0x30
           else if (0x41 <=? c) && (c <=? 0x5A) then c - 0x37
           else if (0x61 <=? c) && (c <=? 0x7A) then c - 0x57 else 99 in
  if d <? base then Some d else None.
Fixpoint number_from (base : Z) (s : list Z) (v : Z) : Z * list Z :=
  match s with
  | c :: t => match digit_in base c with Some d => number_from base t (v * base + d) | None => (v, s) end
  | [] => (v, [])
  end.
Definition sign (s : list Z) : bool * list Z :=
  match s with c :: t => if c =? 0x2D then (true, t) else if c =? 0x2B then (false, t) else (false, s) | [] => (false, []) end.
Definition hex_prefix (base : Z) (s : list Z) : list Z :=
  match s with
  | 0x30 :: x :: d :: t =>
    if (base =? 16) && ((x =? 0x78) || (x =? 0x58)) then match digit_in 16 d with Some _ => d :: t | None => s end else s
  | _ => s
  end.
Definition strtoul (base : Z) (s : list Z) : Z * list Z :=
  let '(neg, t) := sign (skip_space s) in
  let t := hex_prefix base t in
  match t with
  | c :: _ =>
    match digit_in base c with
    | None => (0, s)
    | Some _ =>
      let '(v, r) := number_from base t 0 in
      (if ULONG_MAX <? v then ULONG_MAX else if neg then u64 (- v) else v, r)
    end
  | [] => (0, s)
  end.

Inductive toption :=
| TxnType (arg : list Z) | TxnAmount (arg : list Z) | TxnAmountOther (arg : list Z)
| DebugVerbose | DebugSource (arg : list Z) | DebugLevel (arg : list Z) | ShowVersion.
(** The program goes on, ends with a usage error, or ends after printing the version. *)
Inductive parsed := Accepted (s : settings) | Rejected (t : list Z) | Shown.

(** emv-tool.c:128-145 *)
Definition parse_type (s : settings) (arg : list Z) : parsed :=
  let wrong := lit "Transaction type (--txn-type) argument must be 2 numeric digits" in
  if negb (Zlen arg =? 2) then Rejected wrong
  else
  let '(v, r) := strtoul 16 arg in
  match arg, r with
  | [], _ => Rejected wrong
  | _, _ :: _ => Rejected wrong
  | _, [] => Accepted (mkSettings (u8 v) (o_amount s) (o_other s) (o_verbose s) (o_sources s) (o_level s))
  end.
(** emv-tool.c:147-191: the two amounts; [name] is the start of the messages. *)
Definition parse_amount (name arg : list Z) (set : Z -> settings) : parsed :=
  let wrong := name ++ lit " argument must be numeric digits" in
  match arg with
  | [] => Rejected wrong
  | _ :: _ =>
    let '(v, r) := strtoul 10 arg in
    match r with
    | _ :: _ => Rejected wrong
    | [] => if 0xFFFFFFFF <? v then Rejected (name ++ lit " argument must fit in a 32-bit field") else Accepted (set (u32 v))
    end
  end.
Definition txn_amount_name := lit "Transaction amount (--txn-amount)".
Definition txn_amount_other_name := lit "Secondary transaction amount (--txn-amount-other)".

(** strcasecmp(...) == 0 in the C locale *)
Definition lower (c : Z) : Z := if (0x41 <=? c) && (c <=? 0x5A) then c + 32 else c.
Fixpoint same_text (a b : list Z) : bool :=
  match a, b with [], [] => true | x :: a, y :: b => (lower x =? lower y) && same_text a b | _, _ => false end.
Fixpoint index_of (s : list Z) (names : list string) (i : Z) : option Z :=
  match names with [] => None | n :: t => if same_text s (lit n) then Some i else index_of s t (i + 1) end.
(** emv-tool.c:102-118 *)
Definition debug_source_str : list string := ["TTL"; "TAL"; "EMV"; "APP"; "ALL"].
Definition debug_level_str : list string := ["NONE"; "ERROR"; "INFO"; "CARD"; "TRACE"; "ALL"].
(** strtok(arg, ",") until NULL: what is between the commas, without what is empty. *)
Fixpoint comma_list (cur s : list Z) : list (list Z) :=
  match s with
  | [] => token cur
  | c :: t => if c =? 0x2C then token cur ++ comma_list [] t else comma_list (cur ++ [c]) t
  end.
(** emv-tool.c:198-223 *)
Fixpoint sources_mask (l : list (list Z)) (mask : Z) : Z + list Z :=
  match l with
  | [] => inl mask
  | s :: t =>
    match index_of s debug_source_str 0 with
    | None => inr (lit "Unknown debug source (--debug-source) argument " ++ [0x22] ++ s ++ [0x22])
    | Some i => sources_mask t (Z.lor mask (Z.shiftl 1 i))
    end
  end.
(** emv-tool.c:125-264, argp_parser_helper (without the hidden options) *)
Definition parse_option (s : settings) (o : toption) : parsed :=
  match o with
  | TxnType arg => parse_type s arg
  | TxnAmount arg => parse_amount txn_amount_name arg (fun v => mkSettings (o_type s) v (o_other s) (o_verbose s) (o_sources s) (o_level s))
  | TxnAmountOther arg => parse_amount txn_amount_other_name arg (fun v => mkSettings (o_type s) (o_amount s) v (o_verbose s) (o_sources s) (o_level s))
  | DebugVerbose => Accepted (mkSettings (o_type s) (o_amount s) (o_other s) true (o_sources s) (o_level s))
  | DebugSource arg =>
    match sources_mask (comma_list [] arg) 0 with
    | inl m => Accepted (mkSettings (o_type s) (o_amount s) (o_other s) (o_verbose s) m (o_level s))
    | inr t => Rejected t
    end
  | DebugLevel arg =>                                                         (* 225-236 *)
    match index_of arg debug_level_str 0 with
    | Some i => Accepted (mkSettings (o_type s) (o_amount s) (o_other s) (o_verbose s) (o_sources s) i)
    | None => Rejected (lit "Unknown debug level (--debug-level) argument " ++ [0x22] ++ arg ++ [0x22])
    end
  | ShowVersion => Shown
  end.
Fixpoint parse_options (s : settings) (l : list toption) : parsed :=
  match l with
  | [] => Accepted s
  | o :: t => match parse_option s o with Accepted s => parse_options s t | p => p end
  end.

(** emv-tool.c:647-659: what is written to standard error; the program goes on. *)
Definition amount_checks (s : settings) : list (list Z) :=
  (if negb (o_type s =? 0x30) && (o_amount s =? 0) then [lit "Transaction amount (--txn-amount) argument must be non-zero"] else []) ++
  (if (o_type s =? 0x09) && (o_other s =? 0) then [lit "Secondary transaction amount (--txn-amount-other) must be non-zero for cashback transaction"] else []).

(** ** The data of a transaction *)
(** struct tm as far as used *)
Record tm := mkTm { tm_year : Z; tm_mon : Z; tm_mday : Z; tm_hour : Z; tm_min : Z; tm_sec : Z }.
(** emv_tlv_list_push with the octets of [v] *)
Definition fld (tag : Z) (v : list Z) (flags : Z) : field := mkField tag (Zlen v) v flags.
(** Two digits: ((v / 10) << 4) | (v % 10), converted to uint8_t. *)
Definition two_digits (v : Z) : Z := u8 (Z.lor (Z.shiftl (Z.quot v 10) 4) (Z.rem v 10)).
(** emv_uint_to_format_n/b(value, buf, n): the octets written and [buf] afterwards. *)
Definition format_in (fmt : Z -> list Z -> out (option (list Z))) (value : Z) (buf : list Z) (n : nat) : out (list Z * list Z) :=
  let* o := fmt value (firstn n buf) in
  match o with None => UB | Some v => Ret (v, v ++ skipn n buf) end.
(** emv-tool.c:548-582, emv_txn_load_params; the list was empty, [buf] is uninitialised (6 octets). *)
Definition load_params (buf : list Z) (t : tm) (seq_cnt txn_type amount other : Z) : out (list field) :=
  let* (seq, buf) := format_in uint_to_format_n seq_cnt buf 4 in
  let date := [u8 (Z.lor (Z.shiftl (Z.rem (Z.quot (tm_year t) 10) 10) 4) (Z.rem (tm_year t) 10)); two_digits (tm_mon t + 1); two_digits (tm_mday t)] in
  let time := [two_digits (tm_hour t); two_digits (tm_min t); two_digits (tm_sec t)] in
  let* (an, buf) := format_in uint_to_format_n amount buf 6 in
  let* (ab, buf) := format_in uint_to_format_b amount buf 4 in
  let* (on, buf) := format_in uint_to_format_n other buf 6 in
  let* (ob, buf) := format_in uint_to_format_b other buf 4 in
  Ret [fld 0x9F41 seq 0; fld 0x9A date 0; fld 0x9F21 time 0; fld 0x5F2A [0x09; 0x78] 0; fld 0x5F36 [0x02] 0;
       fld 0x9C [txn_type] 0; fld 0x9F02 an 0; fld 0x81 ab 0; fld 0x9F03 on 0; fld 0x9F04 ob 0].
(** emv-tool.c:584-616, emv_txn_load_config *)
Definition tool_config : list field :=
  [fld 0x9F01 [0x00; 0x01; 0x23; 0x45; 0x67; 0x89] 0; fld 0x9F1A [0x05; 0x28] 0; fld 0x9F1B [0x00; 0x00; 0x03; 0xE8] 0;
   fld 0x9F16 (lit "0987654321     ") 0; fld 0x9F1C (lit "TID12345") 0; fld 0x9F1E (lit "12345678") 0; fld 0x9F4E (lit "ACME Peanuts") 0;
   fld 0x9F33 [0x20; 0xF8; 0xC8] 0; fld 0x9F35 [0x22] 0; fld 0x9F40 [0xFA; 0x00; 0xF0; 0xA3; 0xFF] 0].
Definition tool_aids : list field :=
  [fld 0x9F06 [0xA0; 0x00; 0x00; 0x00; 0x03; 0x10] 1; fld 0x9F06 [0xA0; 0x00; 0x00; 0x00; 0x03; 0x20; 0x10] 0;
   fld 0x9F06 [0xA0; 0x00; 0x00; 0x00; 0x03; 0x20; 0x20] 0; fld 0x9F06 [0xA0; 0x00; 0x00; 0x00; 0x04; 0x10] 1;
   fld 0x9F06 [0xA0; 0x00; 0x00; 0x00; 0x04; 0x30] 1].

(** ** The list of readers *)
(** emv-tool.c:266-286, pcsc_get_reader_state_string; pcsc.h:68-76 *)
Definition reader_state_string (st : Z) : option (list Z) :=
  if negb (Z.land st 0x0008 =? 0) then Some (lit "Status unavailable")
  else if negb (Z.land st 0x0010 =? 0) then Some (lit "No card")
  else if negb (Z.land st 0x0020 =? 0) then
    if negb (Z.land st 0x0200 =? 0) then Some (lit "Unresponsive card")
    else if negb (Z.land st 0x0400 =? 0) then Some (lit "Unpowered card")
    else Some (lit "Card present")
  else None.
(** emv-tool.c:314-351: the line of features *)
Definition feature_list : list (Z * string) := [(0x06, "PIN verification"); (0x07, "PIN modification"); (0x08, "MCT direct"); (0x09, "MCT universal")].
Fixpoint having (f : features) (l : list (Z * string)) : out (list (list Z)) :=
  match l with
  | [] => Ret []
  | (x, name) :: t => let* b := has_feature f x in let* r := having f t in Ret (if b then lit name :: r else r)
  end.
Fixpoint commas (l : list (list Z)) : list Z :=
  match l with [] => [] | [s] => s | s :: t => s ++ lit ", " ++ commas t end.
Definition features_line (f : features) : out (list Z) :=
  let* l := having f feature_list in
  Ret (match l with [] => [] | _ => [9] ++ lit "Features: " ++ commas l ++ newline end).
(** emv-tool.c:353-528: the line of properties.  A uint16_t is little endian in memory.  [junk]: the octets
    of the uninitialised variables. *)
Definition le2 (v : list Z) : Z := nth 0 v 0 + 256 * nth 1 v 0.
Fixpoint any_property (f : features) (l : list Z) (junk : list Z) : out bool :=
  match l with
  | [] => Ret false
  | p :: t => let* (r, _, _) := get_property f p junk (Zlen junk) in if r =? 0 then Ret true else any_property f t junk
  end.
(** One property of [n] octets: its value, zero unless present with [n] octets, and whether *len is not 0. *)
Definition number_property (f : features) (p : Z) (n : nat) (junk : list Z) : out (Z * bool) :=
  let* (r, v, len) := get_property f p (firstn n junk) (Z.of_nat n) in
  Ret (if negb (r =? 0) || negb (len =? Z.of_nat n) then 0 else if (n =? 2)%nat then le2 v else nth 0 v 0, negb (len =? 0)).
(** printf's "%04x" for a uint16_t *)
Definition p_04x (v : Z) : list Z := map (fun k => let d := v / 16 ^ k mod 16 in if d <? 10 then 48 + d else 87 + d) [3; 2; 1; 0].
Definition properties_line (f : features) (junk : list Z) : out (list Z) :=
  let* any := any_property f [0x01; 0x04; 0x05; 0x06; 0x07; 0x0B; 0x0C] junk in
  if negb any then Ret [] else
  let* (r, v, len) := get_property f 0x01 (firstn 2 junk) 2 in                  (* 382-400 *)
  let layout := if (r =? 0) && (len =? 2) then
      [if negb (nth 0 v 0 =? 0) || negb (nth 1 v 0 =? 0) then lit "LCD " ++ p_dec (nth 0 v 0) ++ lit " x " ++ p_dec (nth 1 v 0) else lit "No LCD"]
    else [] in
  let* (chars, chars_len) := number_property f 0x04 2 junk in                   (* 402-445 *)
  let* (lines, lines_len) := number_property f 0x05 2 junk in
  let both := negb (chars =? 0) && negb (lines =? 0) in
  let lcd := if both || chars_len || lines_len then [if both then lit "LCD " ++ p_dec chars ++ lit " x " ++ p_dec lines else lit "LCD"] else [] in
  let* (minp, _) := number_property f 0x06 1 junk in                            (* 447-488 *)
  let* (maxp, _) := number_property f 0x07 1 junk in
  let pin := if negb (minp =? 0) || negb (maxp =? 0) then
      [if negb (maxp =? 0) then lit "PIN size " ++ p_dec minp ++ lit "-" ++ p_dec maxp else lit "PIN size " ++ p_dec minp ++ lit "+"]
    else [] in
  let* (vendor, _) := number_property f 0x0B 2 junk in                          (* 490-523 *)
  let* (product, _) := number_property f 0x0C 2 junk in
  let usb := if negb (vendor =? 0) && negb (product =? 0) then [lit "USB device " ++ p_04x vendor ++ lit ":" ++ p_04x product] else [] in
  Ret ([9] ++ lit "Properties: " ++ commas (layout ++ lcd ++ pin ++ usb) ++ newline).
(** emv-tool.c:288-546, print_pcsc_readers for one reader; [st]: pcsc_reader_get_state's result *)
Definition print_reader (junk : list Z) (i : Z) (name : list Z) (f : features) (st : option Z) : out (list Z) :=
  let* fl := features_line f in
  let* pl := properties_line f junk in
  let text := match st with Some s => match reader_state_string s with Some t => t | None => lit "Unknown" end | None => lit "Unknown" end in
  Ret (lit "Reader " ++ p_dec i ++ lit ": " ++ name ++ newline ++ fl ++ pl ++ [9] ++ lit "State: " ++ text ++ newline).

(** ** The transaction *)
(** What is written to standard output; the lists of print_emv_tlv_list (PrintModel.v) as such. *)
Inductive event := Say (t : list Z) | Fields (l : list field).
Definition line (t : string) : event := Say (lit t ++ newline).
(** src/emv.c:42-51 and 94-106 *)
Definition error_string (r : Z) : string :=
  if r =? EMV_INTERNAL then "Internal error" else if r =? EMV_INVALID_PARAMETER then "Invalid function parameter" else "Unknown error".
Definition outcome_string (r : Z) : string :=
  if r =? CARD_ERROR then "Card error" else if r =? CARD_BLOCKED then "Card blocked" else if r =? NOT_ACCEPTED then "Not accepted"
  else if r =? TRY_AGAIN then "Try again" else if r =? GPO_NOT_ACCEPTED then "Not accepted" else "Invalid outcome".
(** The two messages after each step. *)
Definition report (r : Z) : event :=
  if r <? 0 then Say (lit "ERROR: " ++ lit (error_string r) ++ newline) else Say (lit "OUTCOME: " ++ lit (outcome_string r) ++ newline).

(** fgets(s, 4, stdin): what is read and what is left *)
Fixpoint fgets (n : nat) (i : list Z) : list Z * list Z :=
  match n, i with
  | S n, c :: t => if c =? 10 then ([c], t) else let '(a, r) := fgets n t in (c :: a, r)
  | _, _ => ([], i)
  end.
Fixpoint up_to_nul (s : list Z) : list Z := match s with c :: t => if c =? 0 then [] else c :: up_to_nul t | [] => [] end.
(** sscanf(s, "%u", &input) == 1 *)
Definition scan_u (s : list Z) : option Z :=
  let '(neg, t) := sign (skip_space (up_to_nul s)) in
  match t with
  | c :: _ => match digit_in 10 c with Some _ => let v := fst (number_from 10 t 0) in Some (u32 (if neg then - v else v)) | None => None end
  | [] => None
  end.
(** emv-tool.c:815-841: the number of the application or "Try again" (None), and what is left of the input *)
Definition ask (i : list Z) (count : Z) : option nat * list Z :=
  match i with
  | [] => (None, [])
  | _ :: _ =>
    let '(s, i) := fgets 3 i in
    (match scan_u s with
     | Some v => if (v =? 0) || (count <? v) then None else Some (Z.to_nat (v - 1))
     | None => None
     end, i)
  end.
Fixpoint menu (k : Z) (apps : list emvapp) : out (list Z) :=
  match apps with
  | [] => Ret []
  | a :: t => let* n := p_s (a_name a) in let* r := menu (k + 1) t in Ret (p_dec k ++ lit " - " ++ n ++ newline ++ r)
  end.
(** tools/print_helpers.c:827-841, print_emv_app *)
Definition print_emv_app (a : emvapp) : out (list Z) :=
  let* v := sub (f_val (a_aid a)) 0 (Z.to_nat (f_len (a_aid a))) in
  let* n := p_s (a_name a) in
  Ret (lit "Application: " ++ flat_map p_02X v ++ lit ", " ++ n ++
       (if a_prio a =? 0 then [] else lit ", Priority " ++ p_dec (a_prio a)) ++
       (if a_conf a then lit ", Cardholder confirmation required" else []) ++ newline).
Fixpoint print_apps (l : list emvapp) : out (list event) :=
  match l with [] => Ret [] | a :: t => let* s := print_emv_app a in let* r := print_apps t in Ret (Say s :: r) end.
(** emv_app_list_selection_is_required on sequences (C65): src/emv_app.c:546-566 *)
Definition selection_required (apps : list emvapp) : bool :=
  match apps with [] => false | [a] => a_conf a | _ => true end.

Section Session.
Context {T : Type} (x : transport T) (junk buf : list Z).

(** emv-tool.c:812-887, the loop; [fuel] bounds its rounds.  The result tells whether application processing has
    been initiated. *)
Fixpoint select_loop (fuel : nat) (s : T) (c : ctx) (apps : list emvapp) (required : bool) (i : list Z)
  : out (bool * list event * list emvapp * ctx * T * list Z) :=
  match fuel with
  | O => NoFuel
  | S fuel =>
    let again ev s c apps i := let* (b, ev', apps, c, s, i) := select_loop fuel s c apps required i in Ret (b, ev ++ ev', apps, c, s, i) in
    let* (first, choice, i) :=
      if required then
        let* m := menu 1 apps in
        let '(o, i) := ask i (Zlen apps) in
        Ret ([Say (newline ++ lit "Select application:" ++ newline ++ m ++ lit "Enter number: ")], o, i)
      else Ret ([Say (newline ++ lit "Select first application:" ++ newline)], Some O, i) in
    match choice with
    | None => again (first ++ [line "Invalid input. Try again."]) s c apps i
    | Some index =>
      let* (r, apps, c, s) := select_application x junk s c apps index in
      if r <? 0 then Ret (false, first ++ [report r], apps, c, s, i)
      else if 0 <? r then
        if r =? TRY_AGAIN then again (first ++ [report r]) s c apps i else Ret (false, first ++ [report r], apps, c, s, i)
      else
      match k_app c with
      | None => Ret (false, first, apps, c, s, i)                             (* 863-866: to standard error *)
      | Some _ =>
        let first := first ++ [Say (newline ++ lit "Initiate application processing:" ++ newline)] in
        let* (r, c, s) := initiate x buf s c 0x05 in
        if r <? 0 then Ret (false, first ++ [report r], apps, c, s, i)
        else if 0 <? r then
          if (r =? GPO_NOT_ACCEPTED) && negb (match apps with [] => true | _ => false end)
          then again (first ++ [report r]) s c apps i
          else Ret (false, first ++ [report r], apps, c, s, i)
        else Ret (true, first, apps, c, s, i)
      end
    end
  end.

(** emv-tool.c:768-915: from emv_ctx_init to the end.  [fuel] bounds the loops of the library, [rounds] those
    above.  The result is what is printed, the context before it is cleared, and the card.
    (pcsc_reader_disconnect and its message are left out.) *)
Definition session (fuel rounds : nat) (s : T) (t : tm) (o : settings) (i : list Z) : out (list event * ctx * T) :=
  let* params := load_params (firstn 6 buf) t 42 (o_type o) (o_amount o) (o_other o) in
  let c := mkCtx true tool_config tool_aids params None [] [] in
  let ev := [Say (newline ++ lit "Terminal config:" ++ newline); Fields tool_config; Say (newline ++ lit "Supported AIDs:" ++ newline); Fields tool_aids;
             Say (newline ++ lit "Transaction parameters:" ++ newline); Fields params; Say (newline ++ lit "Build candidate list" ++ newline)] in
  let* (r, apps, s) := build_candidate_list x junk fuel s c [] in
  if negb (r =? 0) then Ret (ev ++ [report r], c, s) else
  let* shown := print_apps apps in
  let required := selection_required apps in
  let ev := ev ++ [line "Candidate applications:"] ++ shown ++ (if required then [line "Cardholder selection is required"] else []) in
  let* (ok, ev', apps, c, s, i) := select_loop rounds s c apps required i in
  let ev := ev ++ ev' in
  if negb ok then Ret (ev, c, s) else
  let* (r, c, s) := read_application_data x fuel s c in
  let ev := ev ++ [Say (newline ++ lit "Read application data" ++ newline)] in
  if negb (r =? 0) then Ret (ev ++ [report r], c, s)
  else Ret (ev ++ [Say (newline ++ lit "ICC data:" ++ newline); Fields (k_icc c); Say (newline ++ lit "Terminal data" ++ newline); Fields (k_term c)], c, s).

(** emv-tool.c:623-915, main: what is written to standard error, and to standard output from 'Present card' on.
    Left out: the list of readers ([print_reader]), the name and state of the reader used, and 'Card detected'. *)
Record presented := mkPresented { p_wait : Z; p_connect : Z; p_atr : option (list Z) }.  (* pcsc_wait_for_card, pcsc_reader_connect, pcsc_reader_get_atr *)
Definition tool (fuel rounds : nat) (s : T) (t : tm) (opts : list toption) (p : presented) (i : list Z) : list (list Z) * out (list event * T) :=
  match parse_options settings0 opts with
  | Rejected m => ([m], Ret ([], s))
  | Shown => ([], Ret ([], s))
  | Accepted o =>
    (amount_checks o,
     let ev := [Say (newline ++ lit "Present card" ++ newline)] in
     if p_wait p <? 0 then Ret (ev ++ [line "PC/SC error"], s)
     else if 0 <? p_wait p then Ret (ev ++ [line "No card; exiting"], s)
     else if p_connect p <? 0 then Ret (ev ++ [line "PC/SC reader activation failed"], s) else
     let ev := ev ++ [line "Card activated"] in
     if p_connect p =? TYPE_CONTACT then
       match p_atr p with
       | None => Ret (ev ++ [line "Failed to retrieve ATR"], s)
       | Some atr =>
         let* r := emv_atr_parse atr in
         if negb (r =? 0) then Ret (ev ++ [report r], s) else
         let* (ev', _, s) := session fuel rounds s t o i in
         Ret (ev ++ ev', s)
       end
     else if p_connect p =? TYPE_CONTACTLESS then Ret (ev ++ [line "Contactless not (yet) supported"], s)
     else Ret (ev ++ [line "Unknown card type"], s))
  end.
End Session.
