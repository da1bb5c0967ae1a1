(** Model of the debug callbacks of tools/print_helpers.c, which print one event of src/emv_debug.c. *)
From Coq Require Import String.
From Verif Require Import Base StrModel InfoModel AtrModel PrintModel.
Open Scope string_scope.
Open Scope Z_scope.
Open Scope list_scope.

(** What [buf] points to: octets, or the [struct iso7816_atr_info_t] of the macro emv_debug_atr_info
    (src/emv_debug.h:176); see PrintModel.v for [beyond]. *)
Inductive payload := Octets (data : list Z) | Atr (x : info) (beyond : list Z).

(** src/emv_debug.h:51-60 *)
Definition TYPE_MSG := 1. Definition TYPE_DATA := 2. Definition TYPE_TLV := 3. Definition TYPE_ATR := 4.
Definition TYPE_CAPDU := 5. Definition TYPE_RAPDU := 6. Definition TYPE_CTPDU := 7. Definition TYPE_RTPDU := 8.

(** tools/print_helpers.c:843-881 [print_emv_debug_internal].  [str] is the message without NUL; [junk], [jid] and [info_str]
    are the initial contents of local arrays of the functions called.  Any other object as [buf] is undefined behaviour. *)
Definition print_emv_debug_internal (e : env) (junk jid info_str : list Z) (type_ : Z) (str : list Z) (buf : payload) : out (list Z) :=
  if type_ =? TYPE_MSG then Ret (str ++ newline)
  else match buf with
  | Atr x beyond => if type_ =? TYPE_ATR then print_atr x beyond junk else UB
  | Octets d =>
    if type_ =? TYPE_TLV then
      let* t := print_emv_text e (lit "  ") info_str d 1 false in
      Ret (print_buf (Some str) d ++ t)
    else if type_ =? TYPE_ATR then UB
    else if type_ =? TYPE_CAPDU then let* t := print_capdu d junk jid in Ret (str ++ lit ": " ++ t)
    else if type_ =? TYPE_RAPDU then let* t := print_rapdu d junk in Ret (str ++ lit ": " ++ t)
    else Ret (print_buf (Some str) d)
  end.
(** tools/print_helpers.c:895-917 and 933-955: the switch over the source *)
Definition src_str (source : Z) : list Z :=
  if source =? 1 then lit "TTL" else if source =? 2 then lit "TAL" else if source =? 4 then lit "EMV" else if source =? 8 then lit "APP" else lit "???".
(** tools/print_helpers.c:957-977: the switch over the level *)
Definition level_str (level : Z) : list Z :=
  if level =? 1 then lit "ERROR" else if level =? 2 then lit "INFO" else if level =? 3 then lit "CARD" else if level =? 4 then lit "TRACE" else lit "????".
(** tools/print_helpers.c:883-919 [print_emv_debug] *)
Definition print_emv_debug (e : env) (junk jid info_str : list Z) (source type_ : Z) (str : list Z) (buf : payload) : out (list Z) :=
  let* t := print_emv_debug_internal e junk jid info_str type_ str buf in Ret (lit "[" ++ src_str source ++ lit "] " ++ t).
(** %010u of an unsigned int *)
Fixpoint p_u0 (k : nat) (v : Z) : list Z := match k with O => [] | Datatypes.S k => p_u0 k (v / 10) ++ [48 + v mod 10] end.
(** tools/print_helpers.c:921-981 [print_emv_debug_verbose] *)
Definition print_emv_debug_verbose (e : env) (junk jid info_str : list Z) (timestamp source level type_ : Z) (str : list Z) (buf : payload) : out (list Z) :=
  let* t := print_emv_debug_internal e junk jid info_str type_ str buf in
  Ret (lit "[" ++ p_u0 10 timestamp ++ lit "," ++ src_str source ++ lit "," ++ level_str level ++ lit "] " ++ t).
