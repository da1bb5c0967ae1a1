(** Specification of hex input, file input, dumps and the event filter. *)
From Verif Require Import Base BerSpec TlvSpec ToolsModel.

(** White space and hex digits. *)
Definition space (c : Z) : Prop := In c [32; 9; 10; 11; 12; 13].
Definition xdigit (c v : Z) : Prop :=
  48 <= c <= 57 /\ v = c - 48 \/ 65 <= c <= 70 /\ v = c - 55 \/ 97 <= c <= 102 /\ v = c - 87.
(** [hex_of text bs]: [text] is the octets [bs] in hex digits of either case, with any
    white space before each digit. *)
Inductive hex_of : list Z -> list Z -> Prop :=
| hex_nil : hex_of [] []
| hex_pair sp1 a va sp2 b vb text bs :
    Forall space sp1 -> Forall space sp2 -> xdigit a va -> xdigit b vb ->
    hex_of text bs -> hex_of (sp1 ++ a :: sp2 ++ b :: text) (va * 16 + vb :: bs).
(** Text that consists of hex digits and white space only. *)
Definition hexish (text : list Z) : Prop := Forall (fun c => space c \/ exists v, xdigit c v) text.

(** A file as a stream: a read gives what is left up to the size asked for and
    meets the end if less than that is left. *)
Definition file_stream : stream (list Z) :=
  fun s n => (firstn n s, Nat.ltb (length s) n, false, skipn n s).

(** [shows e p]: what [e] prints are the octets [p] of the buffer. *)
Inductive shows : event -> list Z -> Prop :=
| sh_leaf d tag v n enc flags :
    encodes enc tag flags v -> (flags / 32) mod 2 = 0 -> shows (ELeaf d tag v n) enc
| sh_node d id lf len :
    identifier id -> constructed (hd 0 id) -> length_octets lf len \/ lf = [128] ->
    shows (ENode d (be id) len) (id ++ lf)
| sh_pad d p : shows (EPad d p) p
| sh_err r : shows (EErr r) []
| sh_rest off p : shows (ERest off p) p.

(** The tags of ISO 8825-1 string and time types, of type 7 and 26 to 30. *)
Definition string_tag (tag : Z) : Prop := tag = 7 \/ tag = 12 \/ 18 <= tag <= 28 \/ tag = 30.
(** The object identifier [arcs] as contents octets. *)
Definition oid_arcs (v arcs : list Z) : Prop :=
  exists b0 a1 a2 encs vs, v = b0 :: concat encs /\ arcs = a1 :: a2 :: vs /\
    0 <= a1 <= 2 /\ 0 <= a2 /\ (a1 < 2 -> a2 < 40) /\ b0 = 40 * a1 + a2 /\ b0 < 128 /\
    Forall2 (fun e v => subidentifier e v /\ v < 4294967296) encs vs.
(** What is said about a primitive object in a BER dump. *)
Definition ber_note (tag : Z) (v : list Z) (n : note) : Prop :=
  string_tag tag /\ Zlen v < 1024 /\ n = NText v \/
  string_tag tag /\ 1024 <= Zlen v /\ n = NLong \/
  tag = 6 /\ (exists arcs, oid_arcs v arcs /\ Zlen arcs <= 10 /\ Zlen v < 40 /\ n = NOid arcs) \/
  ~ string_tag tag /\ tag <> 6 /\ n = NNone.

(** [listing note_of d enc evs]: the octets [enc] are definite-length objects one
    after the other, and [evs] lists each at the depth of its nesting, before
    what is inside it. *)
Inductive listing (note_of : Z -> list Z -> note -> Prop) : nat -> list Z -> list event -> Prop :=
| li_nil d : listing note_of d [] []
| li_leaf d enc tag flags v n encs evs :
    encodes enc tag flags v -> (flags / 32) mod 2 = 0 -> note_of tag v n ->
    listing note_of d encs evs ->
    listing note_of d (enc ++ encs) (ELeaf d tag v n :: evs)
| li_node d enc tag flags v inner encs evs :
    encodes enc tag flags v -> (flags / 32) mod 2 = 1 ->
    listing note_of (S d) v inner -> listing note_of d encs evs ->
    listing note_of d (enc ++ encs) (ENode d tag (Zlen v) :: inner ++ evs).

(** The filter in force after some calls: what the last [DInit] set. *)
Inductive in_force : list dcall -> Z -> Z -> option nat -> Prop :=
| if_start cs : (forall m l f, ~ In (DInit m l f) cs) -> in_force cs 0 0 None
| if_set before m l f after : (forall m l f, ~ In (DInit m l f) after) ->
    in_force (before ++ DInit m l f :: after) m l f.
