(** Specification of the names of commands. *)
From Coq Require Import String.
From Verif Require Import Base TlvSpec StrModel StrSpec CapduSpec.
Open Scope Z_scope.
Open Scope list_scope.

(** ISO 7816-4:2005 5.1.2 table 4.1: the interindustry commands and their instruction
    octets. *)
Definition iso_commands : list (string * list Z) :=
  [("ACTIVATE FILE", [0x44]); ("APPEND RECORD", [0xE2]); ("CHANGE REFERENCE DATA", [0x24]); ("CREATE FILE", [0xE0]);
   ("DEACTIVATE FILE", [0x04]); ("DELETE FILE", [0xE4]); ("DISABLE VERIFICATION REQUIREMENT", [0x26]);
   ("ENABLE VERIFICATION REQUIREMENT", [0x28]); ("ENVELOPE", [0xC2; 0xC3]); ("ERASE BINARY", [0x0E; 0x0F]); ("ERASE RECORD", [0x0C]);
   ("EXTERNAL AUTHENTICATE", [0x82]); ("GENERAL AUTHENTICATE", [0x86; 0x87]); ("GENERATE ASYMMETRIC KEY PAIR", [0x46]);
   ("GET CHALLENGE", [0x84]); ("GET DATA", [0xCA; 0xCB]); ("GET RESPONSE", [0xC0]); ("INTERNAL AUTHENTICATE", [0x88]);
   ("MANAGE CHANNEL", [0x70]); ("MANAGE SECURITY ENVIRONMENT", [0x22]); ("PERFORM SCQL OPERATION", [0x10]);
   ("PERFORM SECURITY OPERATION", [0x2A]); ("PERFORM TRANSACTION OPERATION", [0x12]); ("PERFORM USER OPERATION", [0x14]);
   ("PUT DATA", [0xDA; 0xDB]); ("READ BINARY", [0xB0; 0xB1]); ("READ RECORD", [0xB2; 0xB3]); ("RESET RETRY COUNTER", [0x2C]);
   ("SEARCH BINARY", [0xA0; 0xA1]); ("SEARCH RECORD", [0xA2]); ("SELECT", [0xA4]); ("TERMINATE CARD USAGE", [0xFE]);
   ("TERMINATE DF", [0xE6]); ("TERMINATE EF", [0xE8]); ("UPDATE BINARY", [0xD6; 0xD7]); ("UPDATE RECORD", [0xDC; 0xDD]);
   ("VERIFY", [0x20; 0x21]); ("WRITE BINARY", [0xD0; 0xD1]); ("WRITE RECORD", [0xD2])]%string.
(** EMV 4.4 Book 3, 6.3.2 table 4: the commands with a proprietary class. *)
Definition emv_commands : list (string * list Z) :=
  [("APPLICATION BLOCK", [0x1E]); ("APPLICATION UNBLOCK", [0x18]); ("CARD BLOCK", [0x16]); ("GENERATE AC", [0xAE]); ("GET DATA", [0xCA]);
   ("GET PROCESSING OPTIONS", [0xA8]); ("PIN CHANGE/UNBLOCK", [0x24])]%string.
(** The command that class and instruction name; there is no class FF. *)
Definition command_name (cla ins : Z) (name : string) : Prop :=
  exists codes, In ins codes /\ In (name, codes) (if cla <? 128 then iso_commands else if cla <? 255 then emv_commands else []).

(** ISO 7816-4:2005 7.4.1 table 62: what P1-P2 of PUT DATA refer to, for even and odd
    instructions. *)
Inductive put_target := PutBer (tag : list Z) | PutProprietary (id : Z) | PutSimple (tag : Z) | PutShort (n : Z) | PutDF | PutFile (id : list Z) | PutOther.
Definition put_even (p1 p2 : Z) : put_target :=
  let v := 256 * p1 + p2 in
  if (0x0040 <=? v) && (v <=? 0x00FE) then PutBer [p2]
  else if (0x0100 <=? v) && (v <=? 0x01FF) then PutProprietary p2
  else if (0x0201 <=? v) && (v <=? 0x02FE) then PutSimple p2
  else if 0x4000 <=? v then PutBer [p1; p2] else PutOther.
Definition put_odd (p1 p2 : Z) : put_target :=
  let v := 256 * p1 + p2 in
  if v =? 0 then PutOther else if v <=? 30 then PutShort v else if v =? 0x3FFF then PutDF else PutFile [p1; p2].
(** The text for it ([lit]: the octets of a string). *)
Definition put_text (t : put_target) (s : list Z) : Prop :=
  match t with
  | PutBer tag => s = lit "PUT DATA for BER-TLV field " ++ hex_text tag
  | PutProprietary id => s = lit "PUT DATA for proprietary identifier " ++ hex_text [id]
  | PutSimple tag => s = lit "PUT DATA for SIMPLE-TLV field " ++ hex_text [tag]
  | PutShort n => exists d, dec_text n d /\ s = lit "PUT DATA for short EF " ++ d
  | PutDF => s = lit "PUT DATA for current DF"
  | PutFile id => s = lit "PUT DATA for file " ++ hex_text id
  | PutOther => s = lit "PUT DATA"
  end.
