(** Specification of descriptions of commands and status words. *)
From Verif Require Import Base TlvSpec StrSpec.
Open Scope Z_scope.

(** The buffer [new] shows the text [s], cut off where the buffer [str] ends. *)
Definition shown (str new s : list Z) : Prop :=
  length new = length str /\ cstring new = Some (firstn (length str - 1) s).
(** The decimal text of a number. *)
Definition dec_text (v : Z) (t : list Z) : Prop := exists ds, decimal v ds /\ t = chars ds.

(** The file identifier of SELECT: as text if it is all printable, else in hex. *)
Definition printable (data : list Z) : bool := forallb (fun b => (32 <=? b) && (b <=? 126)) data.
Definition file_text (data : list Z) : list Z := if printable data then data else hex_text data.

(** The identifier 3F00 of the master file. *)
Definition is_mf (data : list Z) : bool := match data with [a; b] => (a =? 0x3F) && (b =? 0) | _ => false end.

(** ISO 7816-4:2005 5.1.3 table 5 and text: the meaning of SW1-SW2. *)
Inductive sw_class := SwNormal | SwWarning | SwExecution | SwChecking | SwProprietary | SwInvalid.
Definition iso_sw_class (sw1 sw2 : Z) : sw_class :=
  if (sw1 =? 0x90) && (sw2 =? 0) || (sw1 =? 0x61) then SwNormal
  else if (0x90 <=? sw1) && (sw1 <=? 0x9F) then SwProprietary
  else if negb ((0x61 <=? sw1) && (sw1 <=? 0x6F)) then SwInvalid
  else if negb (sw2 =? 0) && existsb (Z.eqb sw1) [0x67; 0x6B; 0x6D; 0x6E; 0x6F] then SwProprietary
  else if sw1 <=? 0x63 then SwWarning
  else if sw1 <=? 0x66 then SwExecution
  else SwChecking.
Definition begins_with (p s : list Z) : Prop := exists r, s = p ++ r.

(** ISO 7816-4:2005 5.3.3.2 table 13: life cycle status. *)
Inductive life := LifeNone | LifeCreation | LifeInit | LifeActive | LifeInactive | LifeTerminated | LifeProprietary | LifeReserved.
Definition iso_life (b : Z) : life :=
  if 16 <=? b then LifeProprietary
  else if b =? 0 then LifeNone else if b =? 1 then LifeCreation else if b =? 3 then LifeInit
  else if (b =? 5) || (b =? 7) then LifeActive else if (b =? 4) || (b =? 6) then LifeInactive
  else if 12 <=? b then LifeTerminated else LifeReserved.
