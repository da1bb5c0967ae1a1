(** Specification of what is printed for EMV data. *)
From Coq Require Import String.
From Verif Require Import Base BerSpec TlvSpec StrModel StrSpec FlagsSpec DolSpec InfoModel InfoSpec.
Open Scope string_scope.
Open Scope Z_scope.
Open Scope list_scope.
Notation length := List.length.

Definition nl : list Z := [10].
(** A line at some depth. *)
Definition line_at (prefix : list Z) (d : nat) (s : list Z) : list Z := List.concat (repeat prefix d) ++ s ++ nl.
(** Octets, each after a space; a number in brackets. *)
Definition spaced (v : list Z) : list Z := flat_map (fun b => 32 :: hex2 b) v.
Definition bracketed (n : Z) : list Z := [91] ++ decimal_text n ++ [93].
(** Identifier octets and name. *)
Definition titled (id : list Z) (n : option string) : list Z :=
  hex_text id ++ match n with Some s => lit " | " ++ lit s | None => [] end.
(** The name of a field, if it has one; the same for entries of lists. *)
Definition has_name (tag : Z) (v : list Z) (n : option string) : Prop := forall s, n = Some s <-> field_name tag v s.
Definition has_entry_name (tag : Z) (l : nat) (n : option string) : Prop := forall s, n = Some s <-> entry_name tag l s.

(** ** Lists of data objects and of tags *)
(** Every entry at the beginning of the octets gets a line, up to where there is none. *)
Inductive dol_lines_of (prefix : list Z) (d : nat) : list Z -> list Z -> Prop :=
| dl_end buf : (forall id n rest, identifier id -> buf <> id ++ n :: rest) -> dol_lines_of prefix d buf []
| dl_entry id n name rest txt : identifier id -> is_byte n -> has_entry_name (be id) (Z.to_nat n) name ->
    dol_lines_of prefix d rest txt ->
    dol_lines_of prefix d (id ++ n :: rest) (line_at prefix d (titled id name ++ lit " " ++ bracketed n) ++ txt).
Inductive tag_lines_of (prefix : list Z) (d : nat) : list Z -> list Z -> Prop :=
| tg_end buf : (forall id rest, identifier id -> buf <> id ++ rest) -> tag_lines_of prefix d buf []
| tg_entry id name rest txt : identifier id -> has_entry_name (be id) 0 name ->
    tag_lines_of prefix d rest txt ->
    tag_lines_of prefix d (id ++ rest) (line_at prefix d (titled id name) ++ txt).
Definition dol_text (prefix : list Z) (d : nat) (buf txt : list Z) : Prop :=
  exists l, dol_lines_of prefix (S d) buf l /\ txt = line_at prefix d (lit "Data Object List:") ++ l.
Definition tag_list_text (prefix : list Z) (d : nat) (buf txt : list Z) : Prop :=
  exists l, tag_lines_of prefix (S d) buf l /\ txt = line_at prefix d (lit "Tag List:") ++ l.

(** ** Fields *)
Definition some_text (t : list Z) : bool := match t with [] => false | _ => true end.
(** What follows the octets of a primitive field of format [k] with value [v] and description [s]: text is in
    quotation marks, other descriptions of one line are in parentheses, and the lines of a list are
    below the field, as are the entries of lists of data objects and tags. *)
Inductive description (prefix : list Z) (d : nat) (v : list Z) : kind -> list Z -> list Z -> Prop :=
| de_text k s : In k [IsA; IsAN; IsANS] -> s <> [] -> last s 0 <> 10 -> description prefix d v k s (lit " " ++ [34] ++ s ++ [34] ++ nl)
| de_other k s : ~ In k [IsA; IsAN; IsANS] -> s <> [] -> last s 0 <> 10 -> description prefix d v k s (lit " (" ++ s ++ lit ")" ++ nl)
| de_list k ts : ~ In k [IsDol; IsTagList] -> ts <> [] -> Forall (fun t => ~ In 10 t) ts ->
    description prefix d v k (lines ts) (nl ++ flat_map (fun t => line_at prefix (S d) (lit "- " ++ t)) (filter some_text ts))
| de_none k : ~ In k [IsDol; IsTagList] -> description prefix d v k [] nl
| de_dol txt : dol_text prefix (S d) v txt -> description prefix d v IsDol [] (nl ++ txt)
| de_tags txt : tag_list_text prefix (S d) v txt -> description prefix d v IsTagList [] (nl ++ txt).

(** [describes tag v k s]: the library describes the field so (InfoProps.v). *)
Definition describer := Z -> list Z -> kind -> list Z -> Prop.
Definition head_text (id : list Z) (n : option string) (v : list Z) : list Z := titled id n ++ lit " : " ++ bracketed (Zlen v).
(** A primitive field. *)
Definition field_text (describes : describer) (prefix : list Z) (d : nat) (id v txt : list Z) : Prop :=
  exists n k s desc, has_name (be id) v n /\ describes (be id) v k s /\ description prefix d v k s desc /\
    txt = List.concat (repeat prefix d) ++ head_text id n v ++ spaced v ++ desc.
(** Data: the fields one after the other, those in a template below it. *)
Inductive data_text (describes : describer) (prefix : list Z) : nat -> list Z -> list Z -> Prop :=
| da_nil d : data_text describes prefix d [] []
| da_leaf d id lf v rest t txt : identifier id -> ~ constructed (hd 0 id) -> length_octets lf (Zlen v) ->
    field_text describes prefix d id v t -> data_text describes prefix d rest txt ->
    data_text describes prefix d (id ++ lf ++ v ++ rest) (t ++ txt)
| da_node d id lf v rest n inner txt : identifier id -> constructed (hd 0 id) -> length_octets lf (Zlen v) ->
    has_name (be id) v n -> data_text describes prefix (S d) v inner -> data_text describes prefix d rest txt ->
    data_text describes prefix d (id ++ lf ++ v ++ rest) (line_at prefix d (head_text id n v) ++ inner ++ txt).

(** An entry 84 with length 14 occurs in the octets. *)
Definition df_name_entry (buf : list Z) : Prop :=
  exists before es after, dol before es /\ buf = before ++ 0x84 :: 14 :: after.
(** The fields that cannot be printed. *)
Definition unprintable (tag : Z) (v str : list Z) : Prop :=
  stray_field tag v str \/ (In tag [0x8C; 0x8D; 0x9F38; 0x9F49] /\ df_name_entry v).

(** Octets that do not begin with an object. *)
Definition no_object (bad : list Z) : Prop :=
  bad <> [] /\ (forall enc tag flags v rest, encodes enc tag flags v -> bad <> enc ++ rest) /\
  (forall id rest, identifier id -> constructed (hd 0 id) -> bad <> id ++ 128 :: rest).
(** The rest looks like the padding of a DES or AES block. *)
Definition padding (buf bad : list Z) : Prop :=
  (Zlen buf mod 8 = 0 /\ Zlen bad < 8) \/ (Zlen buf mod 16 = 0 /\ Zlen bad < 15).
Definition padding_text (prefix : list Z) (d : nat) (bad : list Z) : list Z :=
  line_at prefix d (lit "Padding : " ++ bracketed (Zlen bad) ++ spaced bad).
Definition error_text (code : Z) (off : Z) (bad : list Z) : list Z :=
  lit "BER decoding error -" ++ decimal_text code ++ lit " at offset " ++ decimal_text off ++ lit "; remaining invalid data:" ++ spaced bad ++ nl.
(** Data that breaks off: after some fields come octets that do not begin with an object, or a template that
    breaks off itself.  The number is the offset of the octets that are invalid. *)
Inductive broken : list Z -> Z -> Prop :=
| br_here enc ts bad : forest true enc ts -> no_object bad -> broken (enc ++ bad) (Zlen enc)
| br_in enc ts id lf v rest off : forest true enc ts -> identifier id -> constructed (hd 0 id) -> length_octets lf (Zlen v) ->
    broken v off -> broken (enc ++ id ++ lf ++ v ++ rest) (Zlen enc + Zlen id + Zlen lf + off).
(** What is printed for it: everything before, then the error. *)
Inductive broken_text (describes : describer) (prefix : list Z) : nat -> list Z -> Z -> list Z -> Prop :=
| bt_here d enc bad txt code : data_text describes prefix d enc txt -> no_object bad -> 1 <= code <= 11 ->
    broken_text describes prefix d (enc ++ bad) (Zlen enc) (txt ++ lit "BER decoding error -" ++ decimal_text code)
| bt_in d enc id lf v rest off n txt inner : data_text describes prefix d enc txt -> identifier id -> constructed (hd 0 id) ->
    length_octets lf (Zlen v) -> has_name (be id) v n -> broken_text describes prefix (S d) v off inner ->
    broken_text describes prefix d (enc ++ id ++ lf ++ v ++ rest) (Zlen enc + Zlen id + Zlen lf + off)
      (txt ++ line_at prefix d (head_text id n v) ++ inner).
