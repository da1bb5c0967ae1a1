(** UTF-8 of the code points up to 7FF (RFC 3629). ISO 8859-1 octets are their own
    code points. *)
From Verif Require Import Base.

(** [utf8_char c l]: the octets [l] are the UTF-8 encoding of code point [c]. *)
Inductive utf8_char : Z -> list Z -> Prop :=
| utf8_1 c : 0 <= c < 0x80 -> utf8_char c [c]
| utf8_2 c hi lo : 0x80 <= c < 0x800 -> 0 <= hi < 32 -> 0 <= lo < 64 -> c = hi * 64 + lo ->
    utf8_char c [0xC0 + hi; 0x80 + lo].
Inductive utf8_text : list Z -> list Z -> Prop :=
| utf8_nil : utf8_text [] []
| utf8_cons c l cs ls : utf8_char c l -> utf8_text cs ls -> utf8_text (c :: cs) (l ++ ls).

(** The graphic characters of ISO 8859-1. *)
Definition graphic (c : Z) : Prop := 0x20 <= c <= 0x7E \/ 0xA0 <= c <= 0xFF.
