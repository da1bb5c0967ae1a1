(** Model of the command and status descriptions of src/iso7816_strings.c and
    src/emv_strings.c.  A [const char*] result is [true] for [str] and [false] for NULL. *)
From Verif Require Import Base TtlModel StrModel.
Open Scope Z_scope.
Open Scope list_scope.

(** printf conversions: %02X of an octet, %u of a number below 1000. *)
Definition hexd (n : Z) : Z := if n <? 10 then 48 + n else 55 + n.
Definition p_02X (b : Z) : list Z := [hexd (b / 16); hexd (b mod 16)].
Definition p_u (v : Z) : list Z :=
  if v <? 10 then [48 + v]
  else if v <? 100 then [48 + v / 10; 48 + v mod 10]
  else [48 + v / 100; 48 + v / 10 mod 10; 48 + v mod 10].
(** %s of an array: up to its NUL, which must be there. *)
Fixpoint p_s (a : list Z) : out (list Z) :=
  match a with [] => UB | c :: t => if c =? 0 then Ret [] else let* s := p_s t in Ret (c :: s) end.
(** snprintf(str, str_len, ...); return str; *)
Definition say (str s : list Z) : out (bool * list Z) := let* str := snprintf str 0 (length str) s in Ret (true, str).
(** strncpy(str, s, str_len); str[str_len - 1] = 0; *)
Definition say_n (str s : list Z) : out (list Z) :=
  let* str := strncpy str (length str) s in wr str (length str - 1) 0.

(** iso7816_strings.c:65-179 [iso7816_capdu_select_get_string].  [junk] is the content of
    the local array before the function writes to it. *)
Fixpoint select_hex (data : list Z) (i : nat) (id : list Z) : out (list Z) :=
  match data with
  | [] => Ret id
  | b :: rest =>
    let* id := snprintf id (i * 2) (length id - 1 - i * 2) (p_02X b) in
    select_hex rest (S i) id
  end.
Definition occurrence (p2 : Z) : list Z :=
  let o := Z.land p2 0x03 in
  if o =? 0 then lit "first" else if o =? 1 then lit "last" else if o =? 2 then lit "next" else lit "previous".
Definition select_file (c : list Z) (str junk : list Z) : out (bool * list Z) :=
  let* lc := rd c 4 in
  let* data := sub c 5 (Z.to_nat lc) in
  let* id :=
    (if forallb (fun b => negb ((b <? 0x20) || (0x7E <? b))) data
     then snprintf junk 0 (length junk) data else select_hex data 0 junk) in
  let* p2 := rd c 3 in
  let* id := p_s id in
  say str (lit "SELECT " ++ occurrence p2 ++ lit " " ++ id).
Definition capdu_select (c str junk : list Z) : out (bool * list Z) :=
  let* c0 := rd c 0 in
  if negb (Z.land c0 0x80 =? 0) then Ret (false, str) else
  let* c1 := rd c 1 in
  if negb (c1 =? 0xA4) then Ret (false, str) else
  let* cs := apdu_case c in
  if negb ((cs =? CASE_2S) || (cs =? CASE_4S)) then Ret (false, str) else
  let* p1 := rd c 2 in
  let* p2 := (if p1 =? 0 then rd c 3 else Ret 0) in
  if (p1 =? 0) && (p2 =? 0) then
    if cs =? CASE_2S then say str (lit "SELECT Master File")
    else
      let* lc := rd c 4 in
      let* mf := (if lc =? 2 then let* d0 := rd c 5 in let* d1 := rd c 6 in Ret ((d0 =? 0x3F) && (d1 =? 0)) else Ret false) in
      if mf then say str (lit "SELECT Master File") else select_file c str junk
  else if cs =? CASE_2S then Ret (false, str)
  else select_file c str junk.

(** iso7816_strings.c:181-311 [iso7816_capdu_read_record_get_string]; [record_str] (32
    chars) is long enough for every text put into it. *)
Definition capdu_read_record (c str : list Z) : out (bool * list Z) :=
  let* c0 := rd c 0 in
  if negb (Z.land c0 0x80 =? 0) then Ret (false, str) else
  let* ins := rd c 1 in
  if negb ((ins =? 0xB2) || (ins =? 0xB3)) then Ret (false, str) else
  let* cs := apdu_case c in
  if negb (((cs =? CASE_2S) || (cs =? CASE_2E)) && (ins =? 0xB2) || ((cs =? CASE_4S) || (cs =? CASE_4E)) && (ins =? 0xB3))
  then Ret (false, str) else
  let* p1 := rd c 2 in
  let* p2 := rd c 3 in
  if p1 =? 0xFF then Ret (false, str) else
  let number := negb (Z.land p2 0x04 =? 0) in
  let record := if p1 =? 0 then lit "current record"
                else if number then lit "record number " ++ p_u p1 else lit "record identifier " ++ p_u p1 in
  let ef := Z.shiftr (Z.land p2 0xF8) 3 in
  let head := lit "READ RECORD from short EF " ++ p_u ef ++ lit ", " in
  if number then
    let s := Z.land p2 0x03 in
    if s =? 0 then say str (head ++ record)
    else if s =? 1 then say str (head ++ lit "all records from " ++ record ++ lit " up to last")
    else if s =? 2 then say str (head ++ lit "all records from the last up to " ++ record)
    else Ret (false, str)
  else say str (head ++ occurrence p2 ++ lit " occurence of " ++ record).

(** iso7816_strings.c:313-403 [iso7816_capdu_put_data_get_string] *)
Definition capdu_put_data (c str : list Z) : out (bool * list Z) :=
  let* c0 := rd c 0 in
  if negb (Z.land c0 0x80 =? 0) then Ret (false, str) else
  let* ins := rd c 1 in
  if negb ((ins =? 0xDA) || (ins =? 0xDB)) then Ret (false, str) else
  let* cs := apdu_case c in
  if cs =? CASE_3E then say str (lit "PUT DATA")
  else if negb (cs =? CASE_3S) then Ret (false, str)
  else
  let* p1 := rd c 2 in
  let* p2 := rd c 3 in
  let* lc := rd c 4 in
  if Z.land ins 1 =? 0 then
    if (p1 =? 0) && (0x40 <=? p2) && (p2 <=? 0xFE) then say str (lit "PUT DATA for BER-TLV field " ++ p_02X p2)
    else if p1 =? 1 then say str (lit "PUT DATA for proprietary identifier " ++ p_02X p2)
    else if (p1 =? 2) && (1 <=? p2) && (p2 <=? 0xFE) then say str (lit "PUT DATA for SIMPLE-TLV field " ++ p_02X p2)
    else if 0x40 <=? p1 then say str (lit "PUT DATA for BER-TLV field " ++ p_02X p1 ++ p_02X p2)
    else say str (lit "PUT DATA")
  else
    if (p1 =? 0) && (Z.land p2 0xE0 =? 0) && negb (Z.land p2 0x1F =? 0) && negb (Z.land p2 0x1F =? 0x1F)
    then say str (lit "PUT DATA for short EF " ++ p_u p2)
    else if (p1 =? 0x3F) && (p2 =? 0xFF) then say str (lit "PUT DATA for current DF")
    else if (p1 =? 0) && (p2 =? 0) && (lc =? 0) then say str (lit "PUT DATA for current EF")
    else if negb (p1 =? 0) || negb (p2 =? 0) then say str (lit "PUT DATA for file " ++ p_02X p1 ++ p_02X p2)
    else say str (lit "PUT DATA").

(** iso7816_strings.c:438-489: the names of the other instructions. *)
Definition iso_ins : list (Z * string) :=
  [(0x04, "DEACTIVATE FILE");
   (0x0C, "ERASE RECORD");
   (0x0E, "ERASE BINARY");
   (0x0F, "ERASE BINARY");
   (0x10, "PERFORM SCQL OPERATION");
   (0x12, "PERFORM TRANSACTION OPERATION");
   (0x14, "PERFORM USER OPERATION");
   (0x20, "VERIFY");
   (0x21, "VERIFY");
   (0x22, "MANAGE SECURITY ENVIRONMENT");
   (0x24, "CHANGE REFERENCE DATA");
   (0x26, "DISABLE VERIFICATION REQUIREMENT");
   (0x28, "ENABLE VERIFICATION REQUIREMENT");
   (0x2A, "PERFORM SECURITY OPERATION");
   (0x2C, "RESET RETRY COUNTER");
   (0x44, "ACTIVATE FILE");
   (0x46, "GENERATE ASYMMETRIC KEY PAIR");
   (0x70, "MANAGE CHANNEL");
   (0x82, "EXTERNAL AUTHENTICATE");
   (0x84, "GET CHALLENGE");
   (0x86, "GENERAL AUTHENTICATE");
   (0x87, "GENERAL AUTHENTICATE");
   (0x88, "INTERNAL AUTHENTICATE");
   (0xA0, "SEARCH BINARY");
   (0xA1, "SEARCH BINARY");
   (0xA2, "SEARCH RECORD");
   (0xB0, "READ BINARY");
   (0xB1, "READ BINARY");
   (0xC0, "GET RESPONSE");
   (0xC2, "ENVELOPE");
   (0xC3, "ENVELOPE");
   (0xCA, "GET DATA");
   (0xCB, "GET DATA");
   (0xD0, "WRITE BINARY");
   (0xD1, "WRITE BINARY");
   (0xD2, "WRITE RECORD");
   (0xD6, "UPDATE BINARY");
   (0xD7, "UPDATE BINARY");
   (0xDC, "UPDATE RECORD");
   (0xDD, "UPDATE RECORD");
   (0xE0, "CREATE FILE");
   (0xE2, "APPEND RECORD");
   (0xE4, "DELETE FILE");
   (0xE6, "TERMINATE DF");
   (0xE8, "TERMINATE EF");
   (0xFE, "TERMINATE CARD USAGE")]%string.
Definition lookup (k : Z) (t : list (Z * string)) : option string :=
  match find (fun e => fst e =? k) t with Some e => Some (snd e) | None => None end.

(** iso7816_strings.c:405-501 [iso7816_capdu_get_string] *)
Definition iso_capdu_get_string (c str junk : list Z) : out (bool * list Z) :=
  if ((length c =? 0) || (length str =? 0))%nat then Ret (false, str) else
  let* str := wr str 0 0 in
  if (length str <? 4)%nat then Ret (false, str) else                 (* line 422: not the command's length *)
  let* c0 := rd c 0 in
  if c0 =? 0xFF then Ret (false, str)
  else if Z.land c0 0x80 =? 0 then
    let* ins := rd c 1 in
    if ins =? 0xA4 then capdu_select c str junk
    else if (ins =? 0xB2) || (ins =? 0xB3) then capdu_read_record c str
    else if (ins =? 0xDA) || (ins =? 0xDB) then capdu_put_data c str
    else match lookup ins iso_ins with
         | None => Ret (false, str)
         | Some s => let* str := say_n str (lit s) in Ret (true, str)
         end
  else Ret (false, str).

(** emv_strings.c:5995-6012: the names of the instructions. *)
Definition emv_ins : list (Z * string) :=
  [(0x1E, "APPLICATION BLOCK"); (0x18, "APPLICATION UNBLOCK"); (0x16, "CARD BLOCK"); (0xAE, "GENERATE AC");
   (0xA8, "GET PROCESSING OPTIONS"); (0x24, "PIN CHANGE/UNBLOCK")]%string.
(** emv_strings.c:5961-6041 [emv_capdu_get_string], with 5941-5959
    [emv_capdu_get_data_get_string] in place *)
Definition emv_capdu_get_string (c str junk : list Z) : out (Z * list Z) :=
  if (length c =? 0)%nat then Ret (-1, str)
  else if (length str =? 0)%nat then Ret (0, str) else
  let* str := wr str 0 0 in
  if (length str <? 4)%nat then Ret (-2, str) else                    (* not the command's length *)
  let* c0 := rd c 0 in
  if c0 =? 0xFF then Ret (1, str)
  else if negb (Z.land c0 0x80 =? 0) then
    let* ins := rd c 1 in
    if ins =? 0xCA then
      let* p1 := rd c 2 in
      let* p2 := rd c 3 in
      let* str := snprintf str 0 (length str) (lit "GET DATA field " ++ p_02X p1 ++ p_02X p2) in Ret (0, str)
    else match lookup ins emv_ins with
         | None => Ret (2, str)
         | Some s => let* str := say_n str (lit s) in Ret (0, str)
         end
  else
    let* (ok, str) := iso_capdu_get_string c str junk in
    if ok then Ret (0, str) else let* str := wr str 0 0 in Ret (3, str).

(** ** Status words *)

(** iso7816_strings.c:590-767: the details of SW1 SW2 with a fixed text. *)
Definition sw_table : list (Z * list (Z * string)) :=
  [(0x62, [(0x00, "State of non-volatile memory is unchanged");
     (0x81, "Part of returned data may be corrupted");
     (0x82, "End of file or record reached before reading Ne bytes");
     (0x83, "Selected file deactivated");
     (0x84, "File control information not formatted according to ISO 7816-4:2005, 5.3.3");
     (0x85, "Selected file in termination state");
     (0x86, "No input data available from a sensor on the card")]);
   (0x63, [(0x00, "State of non-volatile memory has changed");
     (0x81, "File filled up by the last write")]);
   (0x64, [(0x00, "State of non-volatile memory is unchanged");
     (0x01, "Immediate response required by card")]);
   (0x65, [(0x00, "State of non-volatile memory has changed");
     (0x81, "Memory failure")]);
   (0x67, [(0x00, "Wrong length")]);
   (0x68, [(0x00, "Functions in CLA not supported");
     (0x81, "Logical channel not supported");
     (0x82, "Secure messaging not supported");
     (0x83, "Last command of the chain expected");
     (0x84, "Command chaining not supported")]);
   (0x69, [(0x00, "Command not allowed");
     (0x81, "Command incompatible with file structure");
     (0x82, "Security status not satisfied");
     (0x83, "Authentication method blocked");
     (0x84, "Reference data not usable");
     (0x85, "Conditions of use not satisfied");
     (0x86, "Command not allowed (no current EF)");
     (0x87, "Expected secure messaging data objects missing");
     (0x88, "Incorrect secure messaging data objects")]);
   (0x6A, [(0x00, "Wrong parameters P1-P2");
     (0x80, "Incorrect parameters in the command data field");
     (0x81, "Function not supported");
     (0x82, "File or application not found");
     (0x83, "Record not found");
     (0x84, "Not enough memory space in the file");
     (0x85, "Nc inconsistent with TLV structure");
     (0x86, "Incorrect parameters P1-P2");
     (0x87, "Nc inconsistent with parameters P1-P2");
     (0x88, "Referenced data or reference data not found");
     (0x89, "File already exists");
     (0x8A, "DF name already exists")]);
   (0x6B, [(0x00, "Wrong parameters P1-P2")]);
   (0x6D, [(0x00, "Instruction code not supported or invalid")]);
   (0x6E, [(0x00, "Class not supported")]);
   (0x6F, [(0x00, "No precise diagnosis")])]%string.
Definition sw_detail (sw1 sw2 : Z) : list Z :=
  if sw1 =? 0x66 then lit "Security error 0x" ++ p_02X sw2
  else if sw1 =? 0x6C then lit "Wrong Le field (" ++ p_u sw2 ++ lit " data bytes available)"
  else
    match find (fun e => fst e =? sw1) sw_table with
    | None => lit "Unknown error"
    | Some e =>
      match lookup sw2 (snd e) with
      | Some s => lit s
      | None =>
        if ((sw1 =? 0x62) || (sw1 =? 0x64)) && (0x02 <=? sw2) && (sw2 <=? 0x80)
        then lit "Card-originated query of " ++ p_u sw2 ++ lit " bytes"
        else if (sw1 =? 0x63) && (Z.land sw2 0xF0 =? 0xC0) then lit "Counter is " ++ p_u (Z.land sw2 0x0F)
        else lit "Unknown"
      end
    end.
(** iso7816_strings.c:503-773 [iso7816_sw1sw2_get_string].  (The last branch, "Unknown
    error" at [str], is dead: SW1 from 62 to 6F all have their own.) *)
Definition sw1sw2_get_string (sw1 sw2 : Z) (str : list Z) : out (bool * list Z) :=
  if (length str =? 0)%nat then Ret (false, str)
  else if (sw1 =? 0x90) && (sw2 =? 0) then say str (lit "Normal")
  else if sw1 =? 0x61 then say str (lit "Normal: " ++ p_u sw2 ++ lit " data bytes remaining")
  else if negb (Z.land sw1 0xF0 =? 0x60) && negb (Z.land sw1 0xF0 =? 0x90) then say str (lit "Invalid")
  else if sw1 =? 0x60 then say str (lit "Invalid")
  else if ((sw1 =? 0x67) || (sw1 =? 0x6B) || (sw1 =? 0x6D) || (sw1 =? 0x6E) || (sw1 =? 0x6F)) && negb (sw2 =? 0) || (Z.land sw1 0xF0 =? 0x90)
  then say str (lit "Proprietary")
  else
    let prefix := if (sw1 =? 0x62) || (sw1 =? 0x63) then lit "Warning: "
                  else if (sw1 =? 0x64) || (sw1 =? 0x65) || (sw1 =? 0x66) then lit "Execution error: "
                  else lit "Checking error: " in
    let* str := snprintf str 0 (length str) prefix in
    if (length str <=? length prefix)%nat then Ret (true, str)
    else
      let* str := snprintf str (length prefix) (length str - length prefix) (sw_detail sw1 sw2) in
      Ret (true, str).

(** iso7816_strings.c:775-804 [iso7816_lcs_get_string] with the values of iso7816_strings.h:32-39 *)
Definition lcs_get_string (lcs : Z) : list Z :=
  if lcs =? 0x00 then lit "No information given"
  else if lcs =? 0x01 then lit "Creation state"
  else if lcs =? 0x03 then lit "Initialisation state"
  else if Z.land lcs 0xFD =? 0x05 then lit "Operational state (activated)"
  else if Z.land lcs 0xFD =? 0x04 then lit "Operational state (deactivated)"
  else if Z.land lcs 0xFC =? 0x0C then lit "Termination state"
  else lit "Proprietary".
