(** What the card is told of what was typed, independent of the model: the octets [v] for the entry (tag, length)
    of a list of data objects. *)
From Verif Require Import Base BerSpec TlvSpec TermModel TermSpec.
Open Scope Z_scope.

Definition told (type amount other : Z) (t : tm) (entry : Z * Z) (v : list Z) : Prop :=
  let (tag, n) := entry in
  Zlen v = n /\
  (tag = 0x9F02 -> bcd v /\ decval v = amount mod 100 ^ n) /\                     (* Amount, Authorised (Numeric) *)
  (tag = 0x9F03 -> bcd v /\ decval v = other mod 100 ^ n) /\                      (* Amount, Other (Numeric) *)
  (tag = 0x81 -> n = 4 -> be v = amount) /\ (tag = 0x9F04 -> n = 4 -> be v = other) /\   (* the same in binary *)
  (tag = 0x9C -> n = 1 -> v = [type]) /\                                          (* Transaction Type *)
  (tag = 0x9A -> n = 3 -> exists y m d, v = [y; m; d] /\ in_format_n 1 (tm_year t mod 100) [y] /\ in_format_n 1 (tm_mon t + 1) [m] /\ in_format_n 1 (tm_mday t) [d]) /\
  (tag = 0x9F21 -> n = 3 -> exists h m s, v = [h; m; s] /\ in_format_n 1 (tm_hour t) [h] /\ in_format_n 1 (tm_min t) [m] /\ in_format_n 1 (tm_sec t) [s]) /\
  (tag = 0x5F2A -> n = 2 -> v = [0x09; 0x78]).                                    (* Euro *)
(** The command with the data [d]. *)
Definition gpo_command (d : list Z) : list Z := [0x80; 0xA8; 0x00; 0x00; Zlen d] ++ d ++ [0x00].
