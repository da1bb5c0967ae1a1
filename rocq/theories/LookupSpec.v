(** What the JSON files of the iso-codes package and the list of merchant category codes say, and which name belongs
    to a code. *)
From Coq Require Import String.
From Verif Require Import Base StrModel LookupModel.
Open Scope string_scope.
Open Scope Z_scope.
Open Scope list_scope.
Notation length := List.length.

(** [t] is the text [s] up to its end or to a NUL. *)
Definition before_nul (s t : list Z) : Prop := (t = s /\ ~ In 0 s) \/ (exists r, s = t ++ 0 :: r /\ ~ In 0 t).
(** The object [f] has the member [k] with value [v]. *)
Definition has (f : list (list Z * json)) (k : string) (v : json) : Prop :=
  exists pre post, f = pre ++ (lit k, v) :: post /\ ~ In (lit k) (map fst pre).
(** The text of a value: a string is its own text, anything else but null is shown as JSON. *)
Definition text (l : lib) (v : json) (t : list Z) : Prop :=
  v <> JNull /\ before_nul (match v with JStr s => s | _ => ser l v end) t.
Definition has_text (l : lib) (f : list (list Z * json)) (k : string) (t : list Z) : Prop :=
  exists v, has f k v /\ text l v t.
Definition lacks (f : list (list Z * json)) (k : string) : Prop := ~ In (lit k) (map fst f) \/ has f k JNull.
(** An object whose first member is a string. *)
Definition object (j : json) (f : list (list Z * json)) : Prop := j = JObj f /\ exists k s t, f = (k, JStr s) :: t.

(** The records of the three files. *)
Definition country_record (l : lib) (j : json) (e : entry) : Prop :=
  exists f, object j f /\ has_text l f "name" (e_name e) /\ has_text l f "alpha_2" (e_alpha2 e) /\
    has_text l f "alpha_3" (e_alpha3 e) /\ has_text l f "numeric" (e_numeric e).
Definition currency_record (l : lib) (j : json) (e : entry) : Prop :=
  exists f, object j f /\ has_text l f "name" (e_name e) /\ has_text l f "alpha_3" (e_alpha3 e) /\
    has_text l f "numeric" (e_numeric e) /\ e_alpha2 e = [].
Definition language_record (l : lib) (j : json) (e : entry) : Prop :=
  exists f, object j f /\ has_text l f "name" (e_name e) /\ has_text l f "alpha_3" (e_alpha3 e) /\
    (has_text l f "alpha_2" (e_alpha2 e) \/ lacks f "alpha_2" /\ e_alpha2 e = []) /\ e_numeric e = [].
(** The document lists these records under [key]. *)
Definition lists (root : json) (key : string) (record : json -> entry -> Prop) (es : list entry) : Prop :=
  exists f a, root = JObj f /\ has f key (JArr a) /\ a <> [] /\ Forall2 record a es.

(** A file in a directory. *)
Definition ends_in_slash (p : list Z) : Prop := exists q, p = q ++ [0x2F].
Definition in_directory (p : list Z) (name : string) (full : list Z) : Prop :=
  (ends_in_slash p /\ full = p ++ lit name) \/ (~ ends_in_slash p /\ full = p ++ [0x2F] ++ lit name).

(** The number [n] that a text starts with: white space, a sign, digits.  What does not fit an unsigned long is not
    one.  An unsigned int is made of it. *)
Definition space (c : Z) : Prop := c = 0x20 \/ 0x09 <= c <= 0x0D.
Definition digit (c : Z) : Prop := 0x30 <= c <= 0x39.
Definition value (ds : list Z) : Z := fold_left (fun v d => v * 10 + (d - 0x30)) ds 0.
Definition numeral (s : list Z) (neg : bool) (n : Z) : Prop :=
  exists sp sg ds rest, s = sp ++ sg ++ ds ++ rest /\ Forall space sp /\
    (neg = true /\ sg = [0x2D] \/ neg = false /\ (sg = [] \/ sg = [0x2B])) /\
    ds <> [] /\ Forall digit ds /\ (rest = [] \/ exists c t, rest = c :: t /\ ~ digit c) /\ n = value ds.
Definition number (s : list Z) (n : Z) : Prop :=
  exists neg m, numeral s neg m /\ m < 2 ^ 64 /\ n = (if neg then - m else m) mod 2 ^ 32.

(** [r] is the name in the first of the records [es] that has the code, none if there is none. *)
Definition first_name (es : list entry) (code : entry -> Prop) (r : option (list Z)) : Prop :=
  match r with
  | None => forall e, In e es -> ~ code e
  | Some n => exists pre e post, es = pre ++ e :: post /\ e_name e = n /\ code e /\ forall x, In x pre -> ~ code x
  end.
(** The answers of the lookups in a table that holds these records. *)
Definition answers_countries (s : isocodes) (es : list entry) : Prop :=
  (forall q, exists r, country_by_alpha2 s q = Ret r /\ first_name es (fun e => e_alpha2 e = q) r) /\
  (forall q, exists r, country_by_alpha3 s q = Ret r /\ first_name es (fun e => e_alpha3 e = q) r) /\
  (forall q, exists r, country_by_numeric s q = Ret r /\ first_name es (fun e => number (e_numeric e) q) r).
Definition answers_currencies (s : isocodes) (es : list entry) : Prop :=
  (forall q, exists r, currency_by_alpha3 s q = Ret r /\ first_name es (fun e => e_alpha3 e = q) r) /\
  (forall q, exists r, currency_by_numeric s q = Ret r /\ first_name es (fun e => number (e_numeric e) q) r).
Definition answers_languages (s : isocodes) (es : list entry) : Prop :=
  (forall q, exists r, language_by_alpha2 s q = Ret r /\ first_name es (fun e => e_alpha2 e = q /\ q <> []) r) /\
  (forall q, exists r, language_by_alpha3 s q = Ret r /\ first_name es (fun e => e_alpha3 e = q) r).

(** ** Merchant category codes *)
(** The number of a value (json_object_get_int64). *)
Definition clamp (n : Z) : Z := Z.max (- 2 ^ 63) (Z.min n (2 ^ 63 - 1)).
Inductive int_of : json -> Z -> Prop :=
| int_int n : int_of (JInt n) (clamp n)
| int_real n : int_of (JReal n) (clamp n)
| int_bool (b : bool) : int_of (JBool b) (if b then 1 else 0)
| int_str s t neg n : before_nul s t -> numeral t neg n -> int_of (JStr s) (clamp (if neg then - n else n)).
Definition mcc_fields (l : lib) (f : list (list Z * json)) (p : Z * list Z) : Prop :=
  exists v n, has f "mcc" v /\ int_of v n /\ 0 < n /\ fst p = n mod 2 ^ 32 /\ has_text l f "edited_description" (snd p).
Definition mcc_record (l : lib) (j : json) (p : Z * list Z) : Prop := exists f, object j f /\ mcc_fields l f p.
(** [r] is the last description of code [n] in [ps], [old] if there is none. *)
Definition last_description (ps : list (Z * list Z)) (old : option (list Z)) (n : Z) (r : option (list Z)) : Prop :=
  (exists pre d post, ps = pre ++ (n, d) :: post /\ r = Some d /\ ~ In n (map fst post)) \/
  (~ In n (map fst ps) /\ r = old).

(** ** What an initialisation reports *)
Definition missing (l : lib) (n : list Z) : Prop := file l n = None \/ file l n = Some JNull.
Definition malformed (l : lib) (n : list Z) (key : string) (record : json -> entry -> Prop) : Prop :=
  exists d, file l n = Some d /\ forall es, ~ lists d key record es.
Definition listed (l : lib) (n : list Z) (key : string) (record : json -> entry -> Prop) (es : list entry) : Prop :=
  exists d, file l n = Some d /\ lists d key record es.
(** The three files are taken in turn; the result is 0 or the number of the first that fails, negative if it is there
    but has not the expected form.  The tables of the files before it answer from these, the others answer nothing. *)
Definition reports (l : lib) (p : list Z) (r : Z) (s : isocodes) : Prop :=
  exists n1 n2 n3, in_directory p "iso_3166-1.json" n1 /\ in_directory p "iso_4217.json" n2 /\ in_directory p "iso_639-2.json" n3 /\
  exists cs us ls, answers_countries s cs /\ answers_currencies s us /\ answers_languages s ls /\
    let c := listed l n1 "3166-1" (country_record l) cs in
    let u := listed l n2 "4217" (currency_record l) us in
    ( r = 1 /\ missing l n1 /\ cs = [] /\ us = [] /\ ls = []
    \/ r = -1 /\ malformed l n1 "3166-1" (country_record l) /\ cs = [] /\ us = [] /\ ls = []
    \/ r = 2 /\ c /\ missing l n2 /\ us = [] /\ ls = []
    \/ r = -2 /\ c /\ malformed l n2 "4217" (currency_record l) /\ us = [] /\ ls = []
    \/ r = 3 /\ c /\ u /\ missing l n3 /\ ls = []
    \/ r = -3 /\ c /\ u /\ malformed l n3 "639-2" (language_record l) /\ ls = []
    \/ r = 0 /\ c /\ u /\ listed l n3 "639-2" (language_record l) ls ).
