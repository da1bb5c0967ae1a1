(** Model of src/iso8859_iconv.c and src/iso8859_boost.cpp, the two implementations of iso8859.h that call a library.
    Pointers are not NULL. *)
From Verif Require Import Base StrModel LookupModel.
Notation length := List.length.

(** iso8859_iconv.c:27-39, iso8859_boost.cpp:30-42, iso8859_is_supported. *)
Definition supported (codepage : Z) : bool := negb ((codepage <? 1) || (codepage >? 15) || (codepage =? 12)).

(** iconv: whether iconv_open knows the code page, and the UTF-8 octets of one octet, if it is assigned.  iconv converts
    characters until one is not assigned or does not fit. *)
Record iconv_lib := mkIconv { opens : Z -> bool; utf8_of : Z -> Z -> option (list Z) }.
Fixpoint iconv_loop (lib : iconv_lib) (cp : Z) (iso buf : list Z) (o : nat) : out (bool * list Z) :=
  match iso with
  | [] => Ret (true, buf)
  | c :: t =>
    match utf8_of lib cp c with
    | None => Ret (false, buf)
    | Some u => if (length buf <? o + length u)%nat then Ret (false, buf)
                else let* buf := put buf o u in iconv_loop lib cp t buf (o + length u)
    end
  end.
(** iso8859_iconv.c:41-78, iso8859_to_utf8. *)
Definition to_utf8_iconv (lib : iconv_lib) (cp : Z) (iso utf8 : list Z) : out (Z * list Z) :=
  if ((length iso =? 0)%nat || (length utf8 =? 0)%nat)%bool then Ret (-1, utf8)
  else
    let* utf8 := wr utf8 0 0 in
    if negb (supported cp) then Ret (1, utf8)
    else if negb (opens lib cp) then Ret (-2, utf8)
    else let* (ok, utf8) := iconv_loop lib cp iso utf8 0 in Ret (if ok then 0 else 2, utf8).

(** boost::locale::conv::to_utf: a text, invalid_charset_error, or another exception. *)
Inductive converted := Text (s : list Z) | BadCharset | Thrown.
(** iso8859_boost.cpp:44-80, iso8859_to_utf8. *)
Definition to_utf8_boost (to_utf : Z -> list Z -> converted) (cp : Z) (iso utf8 : list Z) : out (Z * list Z) :=
  if ((length iso =? 0)%nat || (length utf8 =? 0)%nat)%bool then Ret (-1, utf8)
  else
    let* utf8 := wr utf8 0 0 in
    if negb (supported cp) then Ret (1, utf8)
    else
      match to_utf cp iso with
      | BadCharset => Ret (-2, utf8)
      | Thrown => Ret (3, utf8)
      | Text [] => Ret (2, utf8)
      | Text s =>
        let* utf8 := strncpy utf8 (length utf8 - 1) (c_str s) in
        let* utf8 := wr utf8 (length utf8 - 1) 0 in
        Ret (0, utf8)
      end.
