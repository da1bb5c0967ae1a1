(** What the messages about the records of the application are to tell. *)
From Coq Require Import String.
From Verif Require Import Base BaseLemmas FieldsModel TalModel StrModel FlagsSpec DirModel.
Open Scope string_scope.
Open Scope Z_scope.
Open Scope list_scope.
Notation length := List.length.

(** A transport that also notes which records are requested. *)
Definition watched {T} (x : transport T) : transport (T * list (Z * Z)) :=
  let keep log (m : out (answer T)) : out (answer (T * list (Z * Z))) :=
    match m with Ret a => Ret (mkAns (n_ret a) (n_data a) (n_sw a) (n_st a, log)) | UB => UB | NoFuel => NoFuel end in
  mkTr (fun s name => keep (snd s) (x_select x (fst s) name)) (fun s name => keep (snd s) (x_next x (fst s) name))
       (fun s sfi rec => keep (snd s ++ [(sfi, rec)]) (x_read x (fst s) sfi rec)) (fun s d => keep (snd s) (x_gpo x (fst s) d)).

Definition text_of (n : note) : list Z := match n with Err t => t | Info t => t | Data t _ => t end.
Definition is_error (n : note) : bool := match n with Err _ => true | _ => false end.
(** Messages that start with a text. *)
Definition starts (t : list Z) (n : note) : bool := if list_eq_dec Z.eq_dec (firstn (length t) (text_of n)) t then true else false.
Definition is_read : note -> bool := starts (lit "READ RECORD from SFI ").
(** The message for a request. *)
Definition read_note (q : Z * Z) : note := Info (lit "READ RECORD from SFI " ++ decimal_text (fst q) ++ lit ", record " ++ decimal_text (snd q)).
(** The messages that offline data authentication uses a record, or cannot be done. *)
Definition is_used (n : note) : bool :=
  starts (lit "Record template content used for offline data authentication") n || starts (lit "Record used verbatim for offline data authentication") n.
Definition not_possible : note := Err (lit "Offline data authentication not possible due to invalid record").

(** The errors of reading and the message each ends with. *)
Inductive ended : Z -> note -> Prop :=
| end_ttl : ended TAL_TTL_FAILURE (Err (lit "TTL failure"))
| end_status : ended TAL_READ_RECORD_FAILED (Err (lit "Failed to READ RECORD"))
| end_record sfi : 1 <= sfi <= 10 -> ended TAL_READ_RECORD_INVALID (Err (lit "Invalid record for SFI " ++ decimal_text sfi))
| end_template : ended TAL_READ_RECORD_INVALID (Err (lit "Failed to parse record template"))
| end_length len : 0 <= len < 254 -> ended TAL_READ_RECORD_INVALID (Err (lit "Invalid record template length " ++ decimal_text len))
| end_parse : ended TAL_READ_RECORD_PARSE_FAILED (Err (lit "Failed to parse application data record"))
| end_afl : ended TAL_AFL_INVALID (Err (lit "AFL parse error"))
| end_init : ended TAL_AFL_INVALID (Err (lit "Invalid AFL")).
(** The errors told: that authentication is not possible, for [k] records, and then, if the result is an error, the
    one that ends it. *)
Definition errors_told (r : Z) (k : nat) (n : list note) : Prop :=
  (0 <= r /\ filter is_error n = repeat not_possible k) \/
  (r < 0 /\ exists n0 m, n = n0 ++ [m] /\ ended r m /\ filter is_error n0 = repeat not_possible k).
