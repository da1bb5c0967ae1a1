(** Specification of BER forests, decimal fields and text conversions. *)
From Verif Require Import Base BerSpec TlvListModel.

(** A tree of BER objects. *)
Inductive tree :=
| Leaf (tag : Z) (value : list Z)
| Node (tag : Z) (kids : list tree).

(** [forest d enc ts]: the octets [enc] are the encodings of the trees [ts], one
    after the other.  A leaf is a definite-length encoding whose first identifier
    octet says primitive; a node is one that says constructed and whose value is
    again a forest.  If [d] is false, nodes may also have the indefinite length form,
    as the decoder delimits them: identifier, 80, contents. *)
Inductive forest (d : bool) : list Z -> list tree -> Prop :=
| fo_nil : forest d [] []
| fo_leaf enc tag flags v encs ts :
    encodes enc tag flags v -> (flags / 32) mod 2 = 0 ->
    forest d encs ts -> forest d (enc ++ encs) (Leaf tag v :: ts)
| fo_node enc tag flags v kids encs ts :
    encodes enc tag flags v -> (flags / 32) mod 2 = 1 ->
    forest d v kids -> forest d encs ts -> forest d (enc ++ encs) (Node tag kids :: ts)
| fo_indef id v kids encs ts :
    d = false -> identifier id -> constructed (hd 0 id) ->
    forest d v kids -> forest d encs ts ->
    forest d (id ++ 128 :: v ++ encs) (Node (be id) kids :: ts).

(** The primitive fields of a tree in depth-first order. *)
Fixpoint leaves (t : tree) : list field :=
  match t with
  | Leaf tag v => [mkField tag (Zlen v) v 0]
  | Node _ kids => flat_map leaves kids
  end.

(** [f] is a field of [buf]: its definite-length primitive encoding occurs in it. *)
Definition field_of (buf : list Z) (f : field) : Prop :=
  exists pre enc post flags, buf = pre ++ enc ++ post /\
    encodes enc (f_tag f) flags (f_val f) /\ (flags / 32) mod 2 = 0 /\
    f_len f = Zlen (f_val f) /\ f_flags f = 0.

(** EMV format n: two decimal digits per octet; its value. *)
Definition bcd (l : list Z) : Prop :=
  Forall (fun b => is_byte b /\ b / 16 <= 9 /\ b mod 16 <= 9) l.
Definition decval (l : list Z) : Z := fold_left (fun a b => a * 100 + (b / 16) * 10 + b mod 16) l 0.

(** Text in a buffer: the characters, a terminator, and the rest untouched. *)
Definition text_in (old new txt : list Z) : Prop :=
  (length txt < length old)%nat /\ new = txt ++ 0 :: skipn (S (length txt)) old.

(** Characters 20..7E and A0..FF, and letters, digits and space. *)
Definition non_control (b : Z) : bool := ((32 <=? b) && (b <=? 126)) || (160 <=? b).
Definition alnum_space (b : Z) : bool :=
  ((48 <=? b) && (b <=? 57)) || ((65 <=? b) && (b <=? 90)) || ((97 <=? b) && (b <=? 122)) || (b =? 32).

(** Upper-case hex digits. *)
Definition hex_digit (n : Z) : Z := nth (Z.to_nat n) [48;49;50;51;52;53;54;55;56;57;65;66;67;68;69;70] 0.
Definition hex_text (buf : list Z) : list Z :=
  flat_map (fun b => [hex_digit (b / 16); hex_digit (b mod 16)]) buf.
