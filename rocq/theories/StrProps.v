(** Properties of number, date, track 2, PAN and list formatting (C49 to C54, C75). *)
From Verif Require Import Base BaseLemmas BerSpec TlvModel TlvSpec TlvProofs StrModel StrSpec StrProofs.
Open Scope Z_scope.

(** C49: false.  The terminator of the local array goes one past its end, so every
    valid date or time field that is formatted at all is undefined behaviour. *)
Theorem C49_date_time_in_bounds_refuted :
  exists date time str, bcd date /\ bcd time /\ length date = 3%nat /\ length time = 3%nat /\
    date_get_string date str = UB /\ time_get_string time str = UB.
Proof.
  exists [0x24;0x12;0x31], [0x23;0x59;0x59], (repeat 0 32).
  split; [|split; [|split; [|split; [|split]]]]; try (vm_compute; reflexivity);
  (repeat constructor; unfold is_byte; cbn; lia).
Qed.
Print Assumptions C49_date_time_in_bounds_refuted.
(** What holds: the undefined cases are exactly the valid fields; all others give an
    error and leave the output alone; and with a local array of at least 8 characters
    the text is right. *)
Theorem C49_date_time_exact_partial : forall val str, bytes val -> str <> [] ->
  (date_get_string val str = UB <-> bcd val /\ length val = 3%nat /\ (11 <= length str)%nat) /\
  (time_get_string val str = UB <-> bcd val /\ length val = 3%nat /\ (9 <= length str)%nat) /\
  (forall r new, date_get_string val str = Ret (r, new) -> r <> 0 /\ new = str) /\
  (forall r new, time_get_string val str = Ret (r, new) -> r <> 0 /\ new = str).
Proof. exact date_time_exact. Qed.
Print Assumptions C49_date_time_exact_partial.
Theorem C49_date_time_text_partial : forall loc y m d str, (8 <= length loc)%nat -> bcd [y; m; d] ->
  let two b := chars [b / 16; b mod 16] in
  ((11 <= length str)%nat -> exists new, date_time loc 11 date_text [y; m; d] str = Ret (0, new) /\
     text_in str new ([50; 48] ++ two y ++ [45] ++ two m ++ [45] ++ two d)) /\
  ((9 <= length str)%nat -> exists new, date_time loc 9 time_text [y; m; d] str = Ret (0, new) /\
     text_in str new (two y ++ [58] ++ two m ++ [58] ++ two d)).
Proof. exact date_time_text. Qed.
Print Assumptions C49_date_time_text_partial.
Example C49_ex : date_time (repeat 0 8) 11 date_text [0x24;0x12;0x31] (repeat 7 12) = Ret (0, lit "2024-12-31" ++ [0; 7]) /\
  date_time (repeat 0 8) 9 time_text [0x23;0x59;0x58] (repeat 7 9) = Ret (0, lit "23:59:58" ++ [0]).
Proof. split; vm_compute; reflexivity. Qed.

(** C50: false.  If the digits just fill the buffer, the NUL goes one past its end. *)
Theorem C50_number_formatting_refuted :
  exists v str, 0 <= v < 4294967296 /\ (2 <= length str)%nat /\ uint_to_str v str = UB.
Proof. exists 12, [0; 0]. split; [lia|]. split; [cbn; lia|]. vm_compute; reflexivity. Qed.
Print Assumptions C50_number_formatting_refuted.
(** What holds: exactly when the buffer has no room for the digits and the NUL (and
    has two chars) the behaviour is undefined; otherwise the text is exact, or the
    buffer has fewer than two chars and there is an error. *)
Theorem C50_number_formatting_partial : forall v str, 0 <= v < 4294967296 ->
  exists ds, decimal v ds /\ (forall ds', decimal v ds' -> ds' = ds) /\
  ((length str < 2)%nat -> uint_to_str v str = Ret (-2, str)) /\
  ((2 <= length str)%nat -> (length ds < length str)%nat ->
     exists new, uint_to_str v str = Ret (0, new) /\ text_in str new (chars ds)) /\
  ((2 <= length str)%nat -> (length str <= length ds)%nat -> uint_to_str v str = UB).
Proof. exact number_exact. Qed.
Print Assumptions C50_number_formatting_partial.
(** Amounts (binary) and format n fields, for a buffer of at least 11 chars. *)
Theorem C50_amount_text : forall val str, bytes val -> val <> [] -> (11 <= length str)%nat ->
  ((length val <= 4)%nat -> exists ds new, decimal (be val) ds /\ amount_get_string val str = Ret (0, new) /\ text_in str new (chars ds)) /\
  ((4 < length val)%nat -> amount_get_string val str = Ret (-2, str)).
Proof. exact amount_text. Qed.
Print Assumptions C50_amount_text.
Theorem C50_numeric_text : forall val str, bytes val -> val <> [] -> (11 <= length str)%nat ->
  (bcd val -> decval val < 4294967296 ->
     exists ds new, decimal (decval val) ds /\ format_n_get_string val str = Ret (0, new) /\ text_in str new (chars ds)) /\
  (~ bcd val -> exists r, (r = 1 \/ r = 2) /\ format_n_get_string val str = Ret (r, str)).
Proof. exact numeric_text. Qed.
Print Assumptions C50_numeric_text.
Example C50_ex : uint_to_str 4294967295 (repeat 7 12) = Ret (0, lit "4294967295" ++ [0; 7]) /\
  uint_to_str 0 [7; 7; 7] = Ret (0, [48; 0; 7]) /\
  uint_to_str 1000 (repeat 7 5) = Ret (0, lit "1000" ++ [0]) /\ uint_to_str 1000 (repeat 7 4) = UB /\
  amount_get_string [0x01; 0x00] (repeat 7 11) = Ret (0, lit "256" ++ 0 :: repeat 7 7) /\
  format_n_get_string [0x00; 0x12; 0x34] (repeat 7 11) = Ret (0, lit "1234" ++ 0 :: repeat 7 6).
Proof. repeat split; vm_compute; reflexivity. Qed.

(** C51: false.  The output size is not looked at. *)
Theorem C51_track2_in_bounds_refuted :
  exists val str, bytes val /\ str <> [] /\ track2_get_string val str = UB.
Proof.
  exists [0x47;0x61;0x73;0x90;0x01;0x01;0x01;0x19;0xD2;0x21;0x22;0x01;0x11;0x43;0x80;0x40;0x08;0x89;0x0F], (repeat 0 16).
  split; [repeat constructor; unfold is_byte; lia|]. split; [discriminate|]. vm_compute; reflexivity.
Qed.
Print Assumptions C51_track2_in_bounds_refuted.
(** What holds: the text is right if it fits with its NUL, and the behaviour is
    undefined in all other cases. *)
Theorem C51_track2_partial : forall val str, bytes val -> val <> [] -> str <> [] ->
  let ns := before_pad (nibbles val) in
  ((length ns < length str)%nat -> exists new, track2_get_string val str = Ret (0, new) /\ text_in str new (chars ns)) /\
  ((length str <= length ns)%nat -> track2_get_string val str = UB).
Proof. exact track2_cases. Qed.
Print Assumptions C51_track2_partial.
Theorem C51_track2_safe_size : forall val str, bytes val -> (2 * length val < length str)%nat -> track2_get_string val str <> UB.
Proof. exact track2_safe. Qed.
Print Assumptions C51_track2_safe_size.
Example C51_ex : track2_get_string [0x47;0x61;0xD2;0x21;0x2F] (repeat 7 12) = Ret (0, lit "4761=2212" ++ [0; 7; 7]).
Proof. vm_compute; reflexivity. Qed.

(** C52 *)
Theorem C52_cn_round_trip : forall ds buf str, digits ds -> buf <> [] ->
  (length ds <= 2 * length buf)%nat -> (2 * length buf < length str)%nat ->
  exists new txt, str_to_format_cn (chars ds) buf = Ret (0, new) /\ length new = length buf /\ bytes new /\
    nibbles new = ds ++ repeat 15 (2 * length buf - length ds) /\
    format_cn_get_string new str = Ret (0, txt) /\ text_in str txt (chars ds).
Proof. exact cn_round_trip. Qed.
Print Assumptions C52_cn_round_trip.
Theorem C52_cn_inverse : forall val ds k str, bytes val -> val <> [] -> digits ds -> nibbles val = ds ++ repeat 15 k ->
  (2 * length val < length str)%nat ->
  exists txt, format_cn_get_string val str = Ret (0, txt) /\ text_in str txt (chars ds) /\
    forall buf, length buf = length val -> str_to_format_cn (chars ds) buf = Ret (0, val).
Proof. exact cn_inverse. Qed.
Print Assumptions C52_cn_inverse.
(** All strings and buffers: only the characters that fit matter; the others are cut
    off silently. *)
Theorem C52_cn_pack_all : forall s buf, buf <> [] ->
  let n := (2 * length buf)%nat in
  (Forall (fun c => 48 <= c <= 57) (firstn n s) -> exists new, str_to_format_cn s buf = Ret (0, new) /\ length new = length buf /\ bytes new /\
     nibbles new = map dig (firstn n s) ++ repeat 15 (n - length s)) /\
  (~ Forall (fun c => 48 <= c <= 57) (firstn n s) -> exists new, str_to_format_cn s buf = Ret (1, new) /\ length new = length buf).
Proof. exact pack_cn. Qed.
Print Assumptions C52_cn_pack_all.
(** All fields and output sizes. *)
Theorem C52_cn_format_all : forall val str, bytes val ->
  ((length val = 0 \/ length str = 0)%nat -> format_cn_get_string val str = Ret (-1, str)) /\
  (val <> [] -> str <> [] -> (length str <= 2 * length val)%nat -> format_cn_get_string val str = Ret (-2, str)) /\
  (val <> [] -> (2 * length val < length str)%nat -> digits (before_pad (nibbles val)) ->
     exists new, format_cn_get_string val str = Ret (0, new) /\ text_in str new (chars (before_pad (nibbles val)))) /\
  (val <> [] -> (2 * length val < length str)%nat -> ~ digits (before_pad (nibbles val)) ->
     exists new, format_cn_get_string val str = Ret (1, new) /\ length new = length str).
Proof. exact cn_cases. Qed.
Print Assumptions C52_cn_format_all.
Example C52_ex : str_to_format_cn (lit "12345") (repeat 7 4) = Ret (0, [0x12; 0x34; 0x5F; 0xFF]) /\
  format_cn_get_string [0x12; 0x34; 0x5F; 0xFF] (repeat 7 9) = Ret (0, lit "12345" ++ 0 :: repeat 7 3) /\
  str_to_format_cn (lit "123456789") (repeat 7 4) = Ret (0, [0x12; 0x34; 0x56; 0x78]) /\
  str_to_format_cn (lit "12x") (repeat 7 4) = Ret (1, [0x12; 7; 7; 7]).
Proof. repeat split; vm_compute; reflexivity. Qed.

(** C53: also for strings that do not fit: the number modulo 10^(2n). *)
Theorem C53_numeric_packing : forall ds buf, digits ds -> buf <> [] ->
  exists new, str_to_format_n (chars ds) buf = Ret (0, new) /\ length new = length buf /\ bcd new /\
    nibbles new = repeat 0 (2 * length buf - length ds) ++ skipn (length ds - 2 * length buf) ds /\
    decval new = number ds mod 10 ^ (2 * Zlen buf) /\
    format_n_to_uint new = (0, Some ((number ds mod 10 ^ (2 * Zlen buf)) mod 4294967296)).
Proof. exact n_value. Qed.
Print Assumptions C53_numeric_packing.
Theorem C53_numeric_fits : forall ds buf, digits ds -> buf <> [] -> (length ds <= 2 * length buf)%nat -> number ds < 4294967296 ->
  exists new, str_to_format_n (chars ds) buf = Ret (0, new) /\ length new = length buf /\
    nibbles new = repeat 0 (2 * length buf - length ds) ++ ds /\ format_n_to_uint new = (0, Some (number ds)).
Proof. exact n_fits. Qed.
Print Assumptions C53_numeric_fits.
Theorem C53_numeric_invalid : forall s buf, buf <> [] ->
  ~ Forall (fun c => 48 <= c <= 57) (skipn (length s - 2 * length buf) s) ->
  exists new, str_to_format_n s buf = Ret (1, new) /\ length new = length buf.
Proof. intros s buf H. exact (proj2 (pack_n s buf H)). Qed.
Print Assumptions C53_numeric_invalid.
Example C53_ex : str_to_format_n (lit "12345") (repeat 7 4) = Ret (0, [0x00; 0x01; 0x23; 0x45]) /\
  str_to_format_n (lit "12345") (repeat 7 2) = Ret (0, [0x23; 0x45]) /\
  str_to_format_n (lit "1a3") (repeat 7 2) = Ret (1, [7; 0x03]) /\ str_to_format_n [] (repeat 7 2) = Ret (0, [0; 0]).
Proof. repeat split; vm_compute; reflexivity. Qed.

(** C54: false.  A list in fewer than three chars, or to which nothing is added, is not
    NUL terminated ... *)
Theorem C54_list_terminated_refuted :
  exists str texts, str <> [] /\ texts <> [] /\
    (exists itr, add_all str_list_add (str_list_init str) texts = Ret itr /\ cstring (s_buf itr) = None) /\
    (exists itr, add_all iso_str_list_add (str_list_init str) texts = Ret itr /\ cstring (s_buf itr) = None).
Proof.
  exists [7; 7], [lit "abc"]. split; [discriminate|]. split; [discriminate|].
  split; (eexists; split; [vm_compute; reflexivity|vm_compute; reflexivity]).
Qed.
Print Assumptions C54_list_terminated_refuted.
(** ... and the ISO 7816 lists are not cut where the buffer is full: a text that does
    not fit is left out and later ones are added. *)
Theorem C54_iso_list_cut_refuted :
  exists str texts itr c, add_all iso_str_list_add (str_list_init str) texts = Ret itr /\
    cstring (s_buf itr) = Some c /\ (forall n, c <> firstn n (lines texts)).
Proof.
  exists (repeat 7 8), [lit "abcdefg"; lit "xyz"], (mkItr (lit "xyz" ++ [10; 0; 7; 7; 7]) 4 4), (lit "xyz" ++ [10]).
  split; [vm_compute; reflexivity|]. split; [vm_compute; reflexivity|].
  intros n. do 13 (destruct n as [|n]; [vm_compute; discriminate|]). vm_compute; discriminate.
Qed.
Print Assumptions C54_iso_list_cut_refuted.
(** What holds: additions never write outside the buffer; as soon as one text is
    added to a list with room for three chars the list is terminated, it is all the
    lines if they fit and otherwise the lines up to where the buffer is full. *)
Theorem C54_list_partial : forall texts str,
  exists itr c, add_all str_list_add (str_list_init str) texts = Ret itr /\
  cut (length str) texts c /\
  (Forall (fun t => t <> []) texts -> (length (lines texts) < length str)%nat -> c = lines texts) /\
  (texts <> [] -> (3 <= length str)%nat -> text_in str (s_buf itr) c) /\
  (texts = [] \/ (length str < 3)%nat -> s_buf itr = str).
Proof. exact emv_list'. Qed.
Print Assumptions C54_list_partial.
Theorem C54_iso_list_partial : forall texts str,
  exists itr, add_all iso_str_list_add (str_list_init str) texts = Ret itr /\
  let kept := fitting (length str) texts in
  (kept <> [] -> text_in str (s_buf itr) (lines kept)) /\
  (kept = [] -> s_buf itr = str) /\
  ((length (lines texts) < length str)%nat -> kept = texts).
Proof. exact iso_list. Qed.
Print Assumptions C54_iso_list_partial.
Example C54_ex :
  (let* i := add_all str_list_add (str_list_init (repeat 7 12)) [lit "abc"; lit "defghij"; lit "x"] in Ret (s_buf i))
    = Ret (lit "abc" ++ 10 :: lit "defghi" ++ [10; 0]) /\
  (let* i := add_all iso_str_list_add (str_list_init (repeat 7 12)) [lit "abc"; lit "defghij"; lit "x"] in Ret (s_buf i))
    = Ret (lit "abc" ++ 10 :: lit "x" ++ [10; 0] ++ repeat 7 5).
Proof. split; vm_compute; reflexivity. Qed.

(** C75: alphabetic, alphanumeric and special text formats. *)
Theorem C75_text_formats : forall val str,
  let spec (f : list Z -> list Z -> out (Z * list Z)) (ok : Z -> Prop) :=
    ((val = [] \/ str = []) -> f val str = Ret (-1, str)) /\
    (val <> [] -> str <> [] -> (length str <= length val)%nat -> f val str = Ret (-2, str)) /\
    (val <> [] -> (length val < length str)%nat -> Forall ok val -> exists new, f val str = Ret (0, new) /\ text_in str new val) /\
    (val <> [] -> (length val < length str)%nat -> ~ Forall ok val -> exists new, f val str = Ret (1, new) /\ length new = length str) in
  let letter c := 65 <= c <= 90 \/ 97 <= c <= 122 in
  let digit c := 48 <= c <= 57 in
  spec format_a_get_string letter /\
  spec format_an_get_string (fun c => digit c \/ letter c) /\
  spec format_ans_only_space_get_string (fun c => digit c \/ letter c \/ c = 32) /\
  spec format_ans_ccs_get_string (fun c => 32 <= c <= 127).
Proof. exact text_formats. Qed.
Print Assumptions C75_text_formats.
Example C75_ex : format_a_get_string (lit "abZ") (repeat 7 5) = Ret (0, lit "abZ" ++ [0; 7]) /\
  format_a_get_string (lit "ab1") (repeat 7 5) = Ret (1, lit "ab" ++ [7; 7; 7]) /\
  format_an_get_string (lit "ab1") (repeat 7 4) = Ret (0, lit "ab1" ++ [0]) /\
  format_ans_only_space_get_string (lit "a b") (repeat 7 3) = Ret (-2, repeat 7 3) /\
  format_ans_ccs_get_string (lit "a-b") (repeat 7 4) = Ret (0, lit "a-b" ++ [0]).
Proof. repeat split; vm_compute; reflexivity. Qed.

(** C76: describing the value of a field as text: false.  A two-octet service code
    (tag 5F30, maximum 3 digits) with four digits passes the length checks of an
    output of 4 chars and its NUL is written after the end. *)
Theorem C76_value_text_in_bounds_refuted :
  exists val str, bcd val /\ str <> [] /\ tlv_value_get_string FormatN 3 0x5F30 val str = UB.
Proof. exists [0x12; 0x34], [0; 0; 0; 0]. split; [repeat constructor; unfold is_byte; cbn; lia|]. split; [discriminate|]. vm_compute; reflexivity. Qed.
Print Assumptions C76_value_text_in_bounds_refuted.
(** What holds: with an output of at least 11 chars, or an even number of digits, and
    a maximum for 9F12 (the library always has one) nothing outside the output is
    written, the output is a string on success, and it is unchanged or the empty string on
    errors. *)
Theorem C76_value_text_partial : forall fmt max tag val str, bytes val -> str <> [] ->
  (tag = 0x9F12 -> max <> 0%nat) ->
  (fmt = FormatN -> (11 <= length str)%nat \/ (max <> 0%nat /\ Nat.even max = true)) ->
  exists r new, tlv_value_get_string fmt max tag val str = Ret (r, new) /\ length new = length str /\
    (r = 0 -> exists txt, text_in str new txt) /\
    (r <> 0 -> new = str \/ exists rest, new = 0 :: rest).
Proof. exact value_text. Qed.
Print Assumptions C76_value_text_partial.
(** The text shown for the character formats is the value itself. *)
Theorem C76_value_text_exact : forall max tag val str new, str <> [] ->
  (tlv_value_get_string FormatA max tag val str = Ret (0, new) \/ tlv_value_get_string FormatAN max tag val str = Ret (0, new) \/
   tlv_value_get_string FormatANS max tag val str = Ret (0, new)) ->
  text_in str new val.
Proof. exact value_exact. Qed.
Print Assumptions C76_value_text_exact.
Example C76_ex : tlv_value_get_string FormatANS 16 0x50 (lit "VISA DEBIT") (repeat 7 17) = Ret (0, lit "VISA DEBIT" ++ 0 :: repeat 7 6) /\
  tlv_value_get_string FormatN 3 0x5F2A [0x09; 0x78] (repeat 7 11) = Ret (0, lit "978" ++ 0 :: repeat 7 7) /\
  tlv_value_get_string FormatN 2 0x9F21 [0x09; 0x78] (repeat 7 11) = Ret (-3, repeat 7 11) /\
  tlv_value_get_string FormatCN 19 0x5A [0x47; 0x6A] (repeat 7 32) = Ret (1, 0 :: 55 :: 54 :: repeat 7 29).
Proof. repeat split; vm_compute; reflexivity. Qed.
