(** Specification of emv-tool: its options, the data of a transaction, the list of readers, the selection. *)
From Coq Require Import String.
From Verif Require Import Base BerSpec TlvListModel TlvSpec StrModel StrSpec FlagsSpec ToolsSpec PcscModel AppModel TermModel.
Open Scope string_scope.
Open Scope Z_scope.
Open Scope list_scope.
Notation length := List.length.

(** ** Options *)
(** A hexadecimal digit and its value. *)
Inductive hex_char : Z -> Z -> Prop :=
| hc_dec d : 0 <= d <= 9 -> hex_char (0x30 + d) d
| hc_up d : 10 <= d <= 15 -> hex_char (0x41 + (d - 10)) d
| hc_low d : 10 <= d <= 15 -> hex_char (0x61 + (d - 10)) d.
(** What may come before the digits of a number for the C library: white space, then a sign. *)
Definition signed (minus : bool) (s : list Z) : Prop :=
  exists sp, Forall space sp /\ (if minus then s = sp ++ [0x2D] else s = sp \/ s = sp ++ [0x2B]).

(** A name in upper or lower case or mixed; [name] is in upper case. *)
Definition spelled (name : string) (n : list Z) : Prop := Forall2 (fun u c => c = u \/ c = u + 32) (lit name) n.
(** The sources of debug events and their numbers. *)
Definition debug_sources : list (string * Z) := [("TTL", 1); ("TAL", 2); ("EMV", 4); ("APP", 8)].
Definition debug_levels : list (string * Z) := [("NONE", 0); ("ERROR", 1); ("INFO", 2); ("CARD", 3); ("TRACE", 4); ("ALL", 5)].
Fixpoint separated (l : list (list Z)) : list Z :=
  match l with [] => [] | [s] => s | s :: t => s ++ [0x2C] ++ separated t end.

(** ** Transaction data *)
(** A calendar date and time as localtime gives it (years from 1900 on, leap seconds). *)
Definition calendar (t : tm) : Prop :=
  0 <= tm_year t /\ 0 <= tm_mon t <= 11 /\ 1 <= tm_mday t <= 31 /\ 0 <= tm_hour t <= 23 /\ 0 <= tm_min t <= 59 /\ 0 <= tm_sec t <= 60.
(** [fs] has exactly one field with the tag, with this value. *)
Definition holds (fs : list field) (tag : Z) (v : list Z) : Prop :=
  exists a f b, fs = a ++ f :: b /\ f_tag f = tag /\ f_val f = v /\ f_len f = Zlen v /\ f_flags f = 0 /\ ~ In tag (map f_tag (a ++ b)).
(** [n] octets of EMV format n, of format b. *)
Definition in_format_n (n : nat) (value : Z) (v : list Z) : Prop := length v = n /\ bcd v /\ decval v = value.
Definition in_format_b (n : nat) (value : Z) (v : list Z) : Prop := length v = n /\ bytes v /\ be v = value.

(** ** Readers *)
(** The value of a property: the first one in the list; without one, from the PIN or display properties. *)
Definition known (f : features) (es : list (Z * list Z)) (p : Z) : option (list Z) :=
  match find (fun e => fst e =? p) es with
  | Some e => Some (snd e)
  | None =>
    if (p =? 0x01) && negb (f_pin_len f =? 0) then Some (firstn 2 (f_pin f))
    else if (p =? 0x04) && negb (f_disp_len f =? 0) then Some (firstn 2 (f_disp f))
    else if (p =? 0x05) && negb (f_disp_len f =? 0) then Some (skipn 2 (f_disp f)) else None
  end.
(** A number of [n] octets, least significant first; 0 if unknown. *)
Definition amount_of (n : nat) (o : option (list Z)) : Z :=
  match o with Some v => if (length v =? n)%nat then be (rev v) else 0 | None => 0 end.
Definition in_octets (n : nat) (o : option (list Z)) : bool :=
  match o with Some v => ((1 <=? length v) && (length v <=? n))%nat | None => false end.
Definition lower_hex (d : Z) : Z := nth (Z.to_nat d) (lit "0123456789abcdef") 0.
Definition hex4 (v : Z) : list Z := [lower_hex (v / 4096 mod 16); lower_hex (v / 256 mod 16); lower_hex (v / 16 mod 16); lower_hex (v mod 16)].
Fixpoint comma_text (l : list (list Z)) : list Z := match l with [] => [] | [s] => s | s :: t => s ++ lit ", " ++ comma_text t end.
(** The four parts of the line of properties, empty if absent. *)
Definition layout_text (o : option (list Z)) : list (list Z) :=
  match o with
  | Some [a; b] => [if (a =? 0) && (b =? 0) then lit "No LCD" else lit "LCD " ++ decimal_text a ++ lit " x " ++ decimal_text b]
  | _ => []
  end.
Definition display_text (c l : option (list Z)) : list (list Z) :=
  let cn := amount_of 2 c in let ln := amount_of 2 l in
  if (0 <? cn) && (0 <? ln) then [lit "LCD " ++ decimal_text cn ++ lit " x " ++ decimal_text ln]
  else if in_octets 2 c || in_octets 2 l then [lit "LCD"] else [].
Definition pin_text (a b : Z) : list (list Z) :=
  if 0 <? b then [lit "PIN size " ++ decimal_text a ++ lit "-" ++ decimal_text b]
  else if 0 <? a then [lit "PIN size " ++ decimal_text a ++ lit "+"] else [].
Definition usb_text (v p : Z) : list (list Z) :=
  if (0 <? v) && (0 <? p) then [lit "USB device " ++ hex4 v ++ lit ":" ++ hex4 p] else [].
Definition properties_text (f : features) (es : list (Z * list Z)) : list Z :=
  if existsb (fun p => match known f es p with Some _ => true | None => false end) [0x01; 0x04; 0x05; 0x06; 0x07; 0x0B; 0x0C]
  then [9] ++ lit "Properties: " ++
    comma_text (layout_text (known f es 0x01) ++ display_text (known f es 0x04) (known f es 0x05) ++
                pin_text (amount_of 1 (known f es 0x06)) (amount_of 1 (known f es 0x07)) ++ usb_text (amount_of 2 (known f es 0x0B)) (amount_of 2 (known f es 0x0C))) ++ [10]
  else [].
(** PC/SC part 10, feature numbers. *)
Definition features_text (tags : list Z) : list Z :=
  let has x := if in_dec Z.eq_dec x tags then true else false in
  let names := (if has 6 then [lit "PIN verification"] else []) ++ (if has 7 then [lit "PIN modification"] else []) ++
               (if has 8 then [lit "MCT direct"] else []) ++ (if has 9 then [lit "MCT universal"] else []) in
  match names with [] => [] | _ => [9] ++ lit "Features: " ++ comma_text names ++ [10] end.
(** PC/SC part 5, SCARD_STATE_* : bit 3 unavailable, 4 empty, 5 present, 9 mute, 10 unpowered. *)
Definition state_text (st : option Z) : list Z :=
  match st with
  | None => lit "Unknown"
  | Some s => if Z.testbit s 3 then lit "Status unavailable" else if Z.testbit s 4 then lit "No card" else
      if Z.testbit s 5 then (if Z.testbit s 9 then lit "Unresponsive card" else if Z.testbit s 10 then lit "Unpowered card" else lit "Card present") else lit "Unknown"
  end.
