(** Model of src/iso8859_simple.c (the "simple" implementation of iso8859.h; the
    boost and iconv implementations hand the text to those libraries and are
    not modelled). *)
From Verif Require Import Base.

(** iso8859_simple.c:24-32, iso8859_is_supported. *)
Definition iso8859_is_supported (codepage : Z) : bool := if negb (codepage =? 1) then false else true.

(** iso8859_simple.c:55-83: the loop, at input [iso] and output position [idx].
    [utf8_len - utf8_idx] never wraps: [idx <= length buf] holds throughout. *)
Fixpoint utf8_loop (iso buf : list Z) (idx : nat) : out (Z * list Z) :=
  match iso with
  | [] => let* buf := wr buf idx 0 in Ret (0, buf)
  | c :: rest =>
    if c =? 0 then let* buf := wr buf idx 0 in Ret (0, buf)                      (* 56-59 *)
    else if (length buf - idx <? 2)%nat then let* buf := wr buf idx 0 in Ret (0, buf)  (* 62-65 *)
    else if ((c <? 0x20) || ((c >? 0x7E) && (c <? 0xA0)))%bool then Ret (2, buf)   (* 67-70 *)
    else if c <? 0x80 then let* buf := wr buf idx c in utf8_loop rest buf (S idx)
    else
      let* buf := wr buf idx (Z.lor 0xC0 (Z.shiftr c 6)) in
      let* buf := wr buf (S idx) (Z.lor 0x80 (Z.land c 0x3F)) in
      utf8_loop rest buf (S (S idx))
  end.

(** iso8859_simple.c:34-86, iso8859_to_utf8 (pointers not NULL): return code and
    output buffer. *)
Definition iso8859_to_utf8 (codepage : Z) (iso utf8 : list Z) : out (Z * list Z) :=
  if ((length iso =? 0)%nat || (length utf8 =? 0)%nat)%bool then Ret (-1, utf8)
  else
    let* utf8 := wr utf8 0 0 in
    if negb (iso8859_is_supported codepage) then Ret (1, utf8)
    else utf8_loop iso utf8 0.
