(** Specification of the descriptions of an answer to reset. *)
From Coq Require Import String.
From Verif Require Import Base StrModel AtrSpec.
From Verif Require FlagsSpec.
Open Scope Z_scope.
Open Scope list_scope.
Notation dec := FlagsSpec.decimal_text.

(** The texts with separators between them. *)
Definition join (sep : string) (l : list (list Z)) : list Z :=
  match l with [] => [] | s :: l => s ++ flat_map (fun t => lit sep ++ t) l end.
(** The interface bytes that follow T0 (i = 1) or TD(i-1). *)
Definition bytes_text (i : Z) (g : group) : list Z :=
  let name s (o : option Z) := match o with Some _ => [lit s ++ dec i] | None => [] end in
  lit "Y" ++ dec i ++ lit "=" ++ join "," (name "TA"%string (gA g) ++ name "TB"%string (gB g) ++ name "TC"%string (gC g) ++ name "TD"%string (gD g)).
Definition T0_text (t0 : Z) (g : group) : list Z := bytes_text 1 g ++ lit "; K=" ++ dec (t0 mod 16).
(** TDi, when [g] are the bytes that follow. *)
Definition TD_text (i : Z) (t : Z) (g : group) : list Z :=
  bytes_text (i + 1) g ++ (if prot t =? 15 then lit "; Global (T=15)" else lit "; Protocol T=" ++ dec (prot t)).

(** TA1: number of cycles and bits per second; fmax in 0.1 MHz. *)
Definition rate_text (Fi Di fmax cycles rate : Z) : list Z :=
  lit "Fi=" ++ dec Fi ++ lit "; Di=" ++ dec Di ++ lit "; " ++ dec cycles ++ lit " cycles/ETU @ max " ++
  dec (fmax / 10) ++ lit "." ++ dec (fmax mod 10) ++ lit "MHz; max " ++ dec rate ++ lit " bit/s".
(** Fi, Di and f(max) from TA1. *)
Definition ta1_values (gs : list group) (Fi Di fmax : Z) : Prop :=
  let b := dflt (byte_of gA 1 gs) 0x11 in In (b / 16, (Fi, fmax)) table7 /\ In (b mod 16, Di) table8.
(** TA2 (ISO 7816-3:2006 8.3): bit 8 unset if able to change, bit 5 set if the
    parameters are implicit. *)
Definition TA2_text (o : option Z) : list Z :=
  match o with
  | None => lit "Negotiable mode"
  | Some b => lit "Specific mode (" ++ lit (if Z.testbit b 7 then "immutable" else "mutable") ++ lit "); ETU" ++
              lit (if Z.testbit b 4 then " is implicit" else "=Fi/Di") ++ lit "; protocol T=" ++ dec (prot b)
  end.
(** TB1 and TB2 (ISO 7816-3:1997 6.5.4): PI1 in volts, II, PI2 in tenths of volts. *)
Definition TB1_text (o : option Z) : list Z :=
  match o with
  | None | Some 0 => lit "Vpp is not connected"
  | Some b => lit "Vpp is connected; Vpp=" ++ dec (b mod 32 * 1000) ++ lit "mV; Ipp=" ++ dec (nth (Z.to_nat ((b / 32) mod 4)) [25; 50; 100] 0) ++ lit "mA"
  end.
Definition TB2_text (b1 b2 : option Z) : list Z :=
  match b1, b2 with
  | Some _, Some b => lit "Vpp=" ++ dec (b * 100) ++ lit "mV"
  | _, _ => lit "Vpp is not connected"
  end.
(** Interface bytes for i > 2 and protocol [t] (ISO 7816-3:2006 8.3 and 11.4). *)
Definition TA_text (t : Z) (o : option Z) : list Z :=
  match o with
  | None => lit "Unimplemented"
  | Some b =>
    if t =? 15 then
      lit "Clock stop: " ++ lit (nth (Z.to_nat (b / 64)) ["Not supported"; "State L"; "State H"; "No preference"] "")%string ++ lit "; Class: " ++
      join ", " ((if Z.testbit b 0 then [lit "A (5V)"] else []) ++ (if Z.testbit b 1 then [lit "B (3V)"] else []) ++ (if Z.testbit b 2 then [lit "C (1.8V)"] else []))
    else if t =? 1 then lit "IFSI=" ++ dec b
    else lit "Unimplemented"
  end.
Definition TB_text (t : Z) (o : option Z) (Fi Di : Z) : list Z :=
  match o with
  | None => lit "Unimplemented"
  | Some b =>
    if t =? 15 then lit (if b =? 0 then "SPU not used" else if b <? 128 then "Standard usage of SPU" else "Proprietary usage of SPU")
    else if t =? 1 then lit "CWT=" ++ dec (11 + 2 ^ (b mod 16)) ++ lit "; BWT=" ++ dec (11 + 2 ^ (b / 16) * 960 * 372 * Di / Fi)
    else lit "Unimplemented"
  end.
Definition TC_text (t : Z) (o : option Z) : list Z :=
  match o with
  | None => lit "Unimplemented"
  | Some b => if t =? 1 then lit (if Z.testbit b 0 then "Cyclic Redundancy Check (CRC)" else "Longitudinal Redundancy Check (LRC)") else lit "Unimplemented"
  end.
(** At most one group (i > 2) is for protocol [t]. *)
Definition single (t : Z) (gs : list group) : Prop := forall a g1 b g2 c, specific gs = a ++ (t, g1) :: b ++ (t, g2) :: c -> False.

(** ISO 7816-4:2005 8.1.1.1 table 83: the category indicator. *)
Definition category_text (b : Z) : list Z :=
  lit (if b =? 0x00 then "COMPACT-TLV followed by mandatory status indicator" else if b =? 0x10 then "DIR data reference"
       else if b =? 0x80 then "COMPACT-TLV including optional status indicator" else if b / 16 =? 8 then "RFU" else "Proprietary").
