(** The meaning of status bytes SW1-SW2, from ISO 7816-4:2005 5.1.3, tables 5 and 6. *)
From Coq Require Import String.
From Verif Require Import Base StrModel CapduSpec FlagsSpec.
Open Scope string_scope.
Open Scope Z_scope.
Open Scope list_scope.

Definition sw_meanings : list (Z * Z * string) :=
  [ (0x90, 0x00, "Normal");
    (0x62, 0x00, "Warning: State of non-volatile memory is unchanged"); (0x62, 0x81, "Warning: Part of returned data may be corrupted");
    (0x62, 0x82, "Warning: End of file or record reached before reading Ne bytes"); (0x62, 0x83, "Warning: Selected file deactivated");
    (0x62, 0x84, "Warning: File control information not formatted according to ISO 7816-4:2005, 5.3.3");
    (0x62, 0x85, "Warning: Selected file in termination state"); (0x62, 0x86, "Warning: No input data available from a sensor on the card");
    (0x63, 0x00, "Warning: State of non-volatile memory has changed"); (0x63, 0x81, "Warning: File filled up by the last write");
    (0x64, 0x00, "Execution error: State of non-volatile memory is unchanged"); (0x64, 0x01, "Execution error: Immediate response required by card");
    (0x65, 0x00, "Execution error: State of non-volatile memory has changed"); (0x65, 0x81, "Execution error: Memory failure");
    (0x67, 0x00, "Checking error: Wrong length");
    (0x68, 0x00, "Checking error: Functions in CLA not supported"); (0x68, 0x81, "Checking error: Logical channel not supported");
    (0x68, 0x82, "Checking error: Secure messaging not supported"); (0x68, 0x83, "Checking error: Last command of the chain expected");
    (0x68, 0x84, "Checking error: Command chaining not supported");
    (0x69, 0x00, "Checking error: Command not allowed"); (0x69, 0x81, "Checking error: Command incompatible with file structure");
    (0x69, 0x82, "Checking error: Security status not satisfied"); (0x69, 0x83, "Checking error: Authentication method blocked");
    (0x69, 0x84, "Checking error: Reference data not usable"); (0x69, 0x85, "Checking error: Conditions of use not satisfied");
    (0x69, 0x86, "Checking error: Command not allowed (no current EF)"); (0x69, 0x87, "Checking error: Expected secure messaging data objects missing");
    (0x69, 0x88, "Checking error: Incorrect secure messaging data objects");
    (0x6A, 0x00, "Checking error: Wrong parameters P1-P2"); (0x6A, 0x80, "Checking error: Incorrect parameters in the command data field");
    (0x6A, 0x81, "Checking error: Function not supported"); (0x6A, 0x82, "Checking error: File or application not found");
    (0x6A, 0x83, "Checking error: Record not found"); (0x6A, 0x84, "Checking error: Not enough memory space in the file");
    (0x6A, 0x85, "Checking error: Nc inconsistent with TLV structure"); (0x6A, 0x86, "Checking error: Incorrect parameters P1-P2");
    (0x6A, 0x87, "Checking error: Nc inconsistent with parameters P1-P2"); (0x6A, 0x88, "Checking error: Referenced data or reference data not found");
    (0x6A, 0x89, "Checking error: File already exists"); (0x6A, 0x8A, "Checking error: DF name already exists");
    (0x6B, 0x00, "Checking error: Wrong parameters P1-P2"); (0x6D, 0x00, "Checking error: Instruction code not supported or invalid");
    (0x6E, 0x00, "Checking error: Class not supported"); (0x6F, 0x00, "Checking error: No precise diagnosis") ].
(** Values with a number in SW2. *)
Definition sw_numbered (sw1 sw2 : Z) : option (list Z) :=
  if sw1 =? 0x61 then Some (lit "Normal: " ++ decimal_text sw2 ++ lit " data bytes remaining")
  else if (sw1 =? 0x62) && (0x02 <=? sw2) && (sw2 <=? 0x80) then Some (lit "Warning: Card-originated query of " ++ decimal_text sw2 ++ lit " bytes")
  else if (sw1 =? 0x63) && (sw2 / 16 =? 0xC) then Some (lit "Warning: Counter is " ++ decimal_text (sw2 mod 16))
  else if (sw1 =? 0x64) && (0x02 <=? sw2) && (sw2 <=? 0x80) then Some (lit "Execution error: Card-originated query of " ++ decimal_text sw2 ++ lit " bytes")
  else if sw1 =? 0x66 then Some (lit "Execution error: Security error 0x" ++ hex2 sw2)
  else if sw1 =? 0x6C then Some (lit "Checking error: Wrong Le field (" ++ decimal_text sw2 ++ lit " data bytes available)")
  else None.
(** All others only have a class (CapduSpec.v). *)
Definition sw_class_text (c : sw_class) : list Z :=
  match c with
  | SwNormal => lit "Normal" | SwWarning => lit "Warning: Unknown" | SwExecution => lit "Execution error: Unknown"
  | SwChecking => lit "Checking error: Unknown" | SwProprietary => lit "Proprietary" | SwInvalid => lit "Invalid"
  end.
Definition sw_says (sw1 sw2 : Z) (s : list Z) : Prop :=
  (exists t, In (sw1, sw2, t) sw_meanings /\ s = lit t) \/ sw_numbered sw1 sw2 = Some s \/
  ((forall t, ~ In (sw1, sw2, t) sw_meanings) /\ sw_numbered sw1 sw2 = None /\ s = sw_class_text (iso_sw_class sw1 sw2)).
