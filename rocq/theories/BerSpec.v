(** Independent specification of BER (ISO 8825-1:2003 8.1) as a grammar of
    octet strings, and of the OID encoding (8.19).  Nothing here refers to the
    model. *)
From Verif Require Import Base.

(** Big-endian value of octets. *)
Definition be (l : list Z) : Z := fold_left (fun a b => a * 256 + b) l 0.

(** Identifier octets (8.1.2), at most four of them.  The library's tag is the
    big-endian value of the identifier octets. *)
Inductive identifier : list Z -> Prop :=
| id_low b : is_byte b -> b mod 32 <> 31 -> identifier [b]
| id_high b0 more last :
    is_byte b0 -> b0 mod 32 = 31 ->
    Forall (fun b => 128 <= b < 256) more -> 0 <= last < 128 ->
    (length more <= 2)%nat ->
    identifier (b0 :: more ++ [last]).

(** Definite length octets (8.1.3.3-8.1.3.5) of the value [n]; the long form has
    one to four subsequent octets. *)
Inductive length_octets : list Z -> Z -> Prop :=
| len_short n : 0 <= n < 128 -> length_octets [n] n
| len_long ls : bytes ls -> (1 <= length ls <= 4)%nat ->
    length_octets ((128 + Zlen ls) :: ls) (be ls).

(** Class and primitive/constructed bits of the first identifier octet. *)
Definition class_bits (b0 : Z) : Z := b0 / 32 * 32.
Definition constructed (b0 : Z) : Prop := (b0 / 32) mod 2 = 1.

(** A complete definite-length encoding of tag, class bits and value. *)
Record encodes (enc : list Z) (tag flags : Z) (value : list Z) : Prop := {
  enc_value_bytes : bytes value;
  enc_form : exists id lf, enc = id ++ lf ++ value /\ identifier id /\ tag = be id /\
                  length_octets lf (Zlen value) /\ flags = class_bits (hd 0 id) }.

(** A subidentifier (8.19.2): octets with the top bit set, then one without;
    its value is base 128. *)
Definition be128 (l : list Z) : Z := fold_left (fun a b => a * 128 + b mod 128) l 0.
Definition subidentifier (l : list Z) (v : Z) : Prop :=
  exists more last, l = more ++ [last] /\
    Forall (fun b => 128 <= b < 256) more /\ 0 <= last < 128 /\ v = be128 l.

(** The number of subidentifiers in octets: one per octet without the top bit,
    plus one if the last octet has it. *)
Definition subid_count (l : list Z) : nat :=
  Nat.add (length (filter (fun b => b <? 128) l))
          (if last l 0 <? 128 then 0%nat else 1%nat).
