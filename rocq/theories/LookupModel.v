(** Model of src/isocodes_lookup.cpp, src/mcc_lookup.cpp and emv_strings_init of src/emv_strings.c.

    The file system and the JSON parser ([json_object_from_file]) are an arbitrary function from file names to
    documents.  A document is the tree that json-c gives to its caller.  The maps of the C++ code hold references to
    elements of a std::vector; a reference is the storage (counted by [v_gen]) and the index of the element, and using
    one after the vector has moved to other storage is [UB].  What is written to stderr is not modelled. *)
From Coq Require Import String.
From Verif Require Import Base StrModel ToolsModel DecodeModel.
Open Scope string_scope.
Open Scope Z_scope.
Open Scope list_scope.
Notation length := List.length.

(** ** json-c *)
(** json-c's [json_object]; [JReal n] is a number written with a fraction or an exponent, [n] what
    json_object_get_int64 makes of it. *)
Inductive json :=
| JNull | JBool (b : bool) | JInt (n : Z) | JReal (n : Z) | JStr (s : list Z)
| JArr (l : list json) | JObj (f : list (list Z * json)).

(** [ser] is json_object_to_json_string for what is not a string, [file] is json_object_from_file, the other two are
    the configured ISOCODES_JSON_PATH and MCC_JSON_INSTALL_PATH. *)
Record lib := mkLib { ser : json -> list Z; file : list Z -> option json; iso_path : list Z; mcc_path : list Z }.

Fixpoint eqs (a b : list Z) : bool :=
  match a, b with
  | [], [] => true
  | x :: a, y :: b => (x =? y) && eqs a b
  | _, _ => false
  end.
(** A C string: what stands before the first NUL. *)
Fixpoint c_str (s : list Z) : list Z := match s with c :: t => if c =? 0 then [] else c :: c_str t | [] => [] end.

(** json_object_object_get: NULL when the member is absent or null. *)
Fixpoint member (k : list Z) (f : list (list Z * json)) : option json :=
  match f with
  | (k', v) :: t => if eqs k k' then Some v else member k t
  | [] => None
  end.
Definition get (k : list Z) (j : json) : option json :=
  match j with JObj f => match member k f with Some JNull => None | r => r end | _ => None end.
(** json_object_get_string. *)
Definition get_string (l : lib) (j : json) : list Z := c_str (match j with JStr s => s | _ => ser l j end).

(** Decimal numbers of strtoul and strtoll: [None] if there is no digit. *)
Definition is_digit (c : Z) : bool := (0x30 <=? c) && (c <=? 0x39).
Fixpoint digits_from (s : list Z) (v : Z) : Z :=
  match s with c :: t => if is_digit c then digits_from t (v * 10 + (c - 0x30)) else v | [] => v end.
Definition signed (s : list Z) : bool * list Z :=
  match s with c :: t => if c =? 0x2D then (true, t) else if c =? 0x2B then (false, t) else (false, s) | [] => (false, []) end.
Definition decimal (s : list Z) : option (bool * Z) :=
  let '(neg, t) := signed (skip_space s) in
  match t with c :: _ => if is_digit c then Some (neg, digits_from t 0) else None | [] => None end.
(** json_object_get_int64. *)
Definition INT64_MAX : Z := 9223372036854775807.
Definition to_int64 (n : Z) : Z := if INT64_MAX <? n then INT64_MAX else if n <? - INT64_MAX - 1 then - INT64_MAX - 1 else n.
Definition get_int64 (j : json) : Z :=
  match j with
  | JInt n => to_int64 n
  | JReal n => to_int64 n
  | JBool b => if b then 1 else 0
  | JStr s => match decimal (c_str s) with Some (neg, v) => to_int64 (if neg then - v else v) | None => 0 end
  | _ => 0
  end.
(** std::stoul in base 10: [None] if it throws. *)
Definition stoul (s : list Z) : option Z :=
  match decimal s with
  | Some (neg, v) => if 18446744073709551615 <? v then None else Some (if neg then u64 (- v) else v)
  | None => None
  end.

(** json_c_visit of json-c.  [userfunc] is given the value, whether it is the second visit, whether there is a parent,
    the key and the index. *)
Inductive vret := Continue | Skip | Pop | Stop | Error.
Section Visit.
  Context {T : Type}.
  Variable userfunc : json -> bool -> bool -> option (list Z) -> option nat -> T -> vret * T.
  Fixpoint visit (j : json) (parent : bool) (key : option (list Z)) (idx : option nat) (s : T) {struct j} : vret * T :=
    match userfunc j false parent key idx s with
    | (Continue, s) =>
      let second (s : T) :=
        match userfunc j true parent key idx s with
        | (Skip, s) | (Pop, s) | (Continue, s) => (Continue, s)
        | r => r
        end in
      match j with
      | JObj f =>
        let go := fix go (f : list (list Z * json)) (s : T) : vret * T :=
          match f with
          | [] => (Continue, s)
          | (k, c) :: t =>
            match visit c true (Some k) None s with
            | (Pop, s) => (Continue, s)
            | (Continue, s) | (Skip, s) => go t s
            | r => r
            end
          end in
        match go f s with (Continue, s) => second s | r => r end
      | JArr l =>
        let go := fix go (l : list json) (i : nat) (s : T) : vret * T :=
          match l with
          | [] => (Continue, s)
          | c :: t =>
            match visit c true None (Some i) s with
            | (Pop, s) => (Continue, s)
            | (Continue, s) | (Skip, s) => go t (S i) s
            | r => r
            end
          end in
        match go l O s with (Continue, s) => second s | r => r end
      | _ => (Continue, s)
      end
    | r => r
    end.
End Visit.
(** json_c_visit(jso, 0, userfunc, userarg) == 0, and what the visits have done. *)
Definition json_c_visit {T} (userfunc : json -> bool -> bool -> option (list Z) -> option nat -> T -> vret * T) (j : json) (s : T) : bool * T :=
  match visit userfunc j false None None s with (Error, s) => (false, s) | (_, s) => (true, s) end.

(** isocodes_lookup.cpp:240-284 and mcc_lookup.cpp:87-131, json_array_visit_userfunc; [append] is the function in
    userarg, [None] its false. *)
Definition array_visit {T} (append : json -> T -> option T)
  (j : json) (second parent : bool) (key : option (list Z)) (idx : option nat) (s : T) : vret * T :=
  if second then (Continue, s)
  else
    match parent, j, idx, key with
    | false, JArr _, _, _ => (Continue, s)
    | _, JObj _, Some _, _ => match append j s with Some s => (Continue, s) | None => (Error, s) end
    | _, JStr _, _, Some _ => (Pop, s)
    | _, _, _, _ => (Error, s)
    end.

(** ** isocodes_lookup.cpp *)
(** isocodes_lookup.cpp:42-69: the entries.  One record for the three structs: a currency has no [e_alpha2], a language
    no [e_numeric]; these are then empty and not used. *)
Record entry := mkEntry { e_name : list Z; e_alpha2 : list Z; e_alpha3 : list Z; e_numeric : list Z }.
(** std::vector: its elements, its capacity, and which storage it uses. *)
Record vec := mkVec { v_items : list entry; v_cap : nat; v_gen : nat }.
Definition reserve (n : nat) (v : vec) : vec := if (v_cap v <? n)%nat then mkVec (v_items v) n (S (v_gen v)) else v.
(** push_back: a full vector moves to storage of twice the size (as in libstdc++ and libc++). *)
Definition push_back (e : entry) (v : vec) : vec :=
  if (length (v_items v) <? v_cap v)%nat then mkVec (v_items v ++ [e]) (v_cap v) (v_gen v)
  else mkVec (v_items v ++ [e]) (Nat.max 1 (2 * v_cap v)) (S (v_gen v)).
(** A reference to an element, and its use. *)
Definition ref : Type := nat * nat.
Definition deref (v : vec) (r : ref) : out entry := if (fst r =? v_gen v)%nat then rd (v_items v) (snd r) else UB.
(** std::map: emplace does nothing when the key is there. *)
Section Map.
  Context {K V : Type}.
  Variable eqk : K -> K -> bool.
  Fixpoint find (k : K) (m : list (K * V)) : option V :=
    match m with (k', v) :: t => if eqk k k' then Some v else find k t | [] => None end.
  Definition emplace (k : K) (v : V) (m : list (K * V)) : list (K * V) :=
    match find k m with Some _ => m | None => m ++ [(k, v)] end.
  (** operator[] and assignment. *)
  Fixpoint assign (k : K) (v : V) (m : list (K * V)) : list (K * V) :=
    match m with (k', w) :: t => if eqk k k' then (k', v) :: t else (k', w) :: assign k v t | [] => [(k, v)] end.
End Map.
(** A list and its maps. *)
Record table := mkTable {
  t_vec : vec; t_alpha2 : list (list Z * ref); t_alpha3 : list (list Z * ref); t_numeric : list (Z * ref) }.
Definition table0 : table := mkTable (mkVec [] 0 0) [] [] [].
Record isocodes := mkIso { countries : table; currencies : table; languages : table }.
Definition isocodes0 : isocodes := mkIso table0 table0 table0.

(** isocodes_lookup.cpp:72-134, country_list_append. *)
Definition country_append (l : lib) (j : json) (v : vec) : option vec :=
  match get (lit "name") j with
  | None => None
  | Some name =>
  match get (lit "alpha_2") j with
  | None => None
  | Some a2 =>
  match get (lit "alpha_3") j with
  | None => None
  | Some a3 =>
  match get (lit "numeric") j with
  | None => None
  | Some num => Some (push_back (mkEntry (get_string l name) (get_string l a2) (get_string l a3) (get_string l num)) v)
  end end end end.
(** isocodes_lookup.cpp:136-186, currency_list_append. *)
Definition currency_append (l : lib) (j : json) (v : vec) : option vec :=
  match get (lit "name") j with
  | None => None
  | Some name =>
  match get (lit "alpha_3") j with
  | None => None
  | Some a3 =>
  match get (lit "numeric") j with
  | None => None
  | Some num => Some (push_back (mkEntry (get_string l name) [] (get_string l a3) (get_string l num)) v)
  end end end.
(** isocodes_lookup.cpp:188-238, language_list_append. *)
Definition language_append (l : lib) (j : json) (v : vec) : option vec :=
  match get (lit "name") j with
  | None => None
  | Some name =>
  let a2 := match get (lit "alpha_2") j with Some a2 => get_string l a2 | None => [] end in
  match get (lit "alpha_3") j with
  | None => None
  | Some a3 => Some (push_back (mkEntry (get_string l name) a2 (get_string l a3) []) v)
  end end.

(** The loops "for (auto&& x : list) map.emplace(key(x), x)": [None] is an exception, [Some None] an element left out. *)
Fixpoint index {K} (eqk : K -> K -> bool) (key : entry -> option (option K)) (gen i : nat) (es : list entry) (m : list (K * ref))
  : option (list (K * ref)) :=
  match es with
  | [] => Some m
  | e :: t =>
    match key e with
    | None => None
    | Some None => index eqk key gen (S i) t m
    | Some (Some k) => index eqk key gen (S i) t (emplace eqk k (gen, i) m)
    end
  end.
Definition index_all {K} (eqk : K -> K -> bool) (key : entry -> option (option K)) (v : vec) (m : list (K * ref)) :=
  index eqk key (v_gen v) 0 (v_items v) m.
(** map<unsigned int,..>::emplace(std::stoul(..), ..): the key is converted to unsigned int. *)
Definition numeric_key (e : entry) : option (option Z) := option_map (fun v => Some (u32 v)) (stoul (e_numeric e)).

(** What a call comes to: a result, or std::terminate (an exception that leaves a noexcept function). *)
Inductive ended (A : Type) := Returned (a : A) | Terminated.
Arguments Returned {A} a.
Arguments Terminated {A}.

(** The array that all three start from: isocodes_lookup.cpp:310-321, 369-380, 423-434. *)
Definition entries (key : list Z) (root : json) : option (list json) :=
  match root with
  | JObj f => match member key f with Some (JArr a) => if (length a =? 0)%nat then None else Some a | _ => None end
  | _ => None
  end.
(** isocodes_lookup.cpp:323-327, 382-386, 436-440: reserve and json_c_visit. *)
Definition fill (append : json -> vec -> option vec) (a : list json) (v : vec) : bool * vec :=
  json_c_visit (array_visit append) (JArr a) (reserve (length a) v).

(** isocodes_lookup.cpp:286-345, build_country_list. *)
Definition build_country_list (l : lib) (root : json) (t : table) : ended (bool * table) :=
  match entries (lit "3166-1") root with
  | None => Returned (false, t)
  | Some a =>
    match fill (country_append l) a (t_vec t) with
    | (false, v) => Returned (false, mkTable v (t_alpha2 t) (t_alpha3 t) (t_numeric t))
    | (true, v) =>
      match index_all eqs (fun e => Some (Some (e_alpha2 e))) v (t_alpha2 t),
            index_all eqs (fun e => Some (Some (e_alpha3 e))) v (t_alpha3 t),
            index_all Z.eqb numeric_key v (t_numeric t) with
      | Some m2, Some m3, Some mn => Returned (true, mkTable v m2 m3 mn)
      | _, _, _ => Terminated
      end
    end
  end.
(** isocodes_lookup.cpp:347-399, build_currency_list. *)
Definition build_currency_list (l : lib) (root : json) (t : table) : ended (bool * table) :=
  match entries (lit "4217") root with
  | None => Returned (false, t)
  | Some a =>
    match fill (currency_append l) a (t_vec t) with
    | (false, v) => Returned (false, mkTable v (t_alpha2 t) (t_alpha3 t) (t_numeric t))
    | (true, v) =>
      match index_all eqs (fun e => Some (Some (e_alpha3 e))) v (t_alpha3 t),
            index_all Z.eqb numeric_key v (t_numeric t) with
      | Some m3, Some mn => Returned (true, mkTable v (t_alpha2 t) m3 mn)
      | _, _ => Terminated
      end
    end
  end.
(** isocodes_lookup.cpp:401-455, build_language_list. *)
Definition build_language_list (l : lib) (root : json) (t : table) : ended (bool * table) :=
  match entries (lit "639-2") root with
  | None => Returned (false, t)
  | Some a =>
    match fill (language_append l) a (t_vec t) with
    | (false, v) => Returned (false, mkTable v (t_alpha2 t) (t_alpha3 t) (t_numeric t))
    | (true, v) =>
      match index_all eqs (fun e => Some (match e_alpha2 e with [] => None | k => Some k end)) v (t_alpha2 t),
            index_all eqs (fun e => Some (Some (e_alpha3 e))) v (t_alpha3 t) with
      | Some m2, Some m3 => Returned (true, mkTable v m2 m3 (t_numeric t))
      | _, _ => Terminated
      end
    end
  end.

(** json_object_from_file: the document null is a NULL pointer as well. *)
Definition from_file (l : lib) (name : list Z) : option json := match file l name with Some JNull => None | r => r end.
(** One of the three parts of isocodes_init (lines 473-485, 487-499, 501-513). *)
Definition load (l : lib) (name : list Z) (build : lib -> json -> table -> ended (bool * table)) (t : table) (n : Z)
  : ended (Z * table) :=
  match from_file l name with
  | None => Returned (n, t)
  | Some root =>
    match build l root t with
    | Terminated => Terminated
    | Returned (false, t) => Returned (- n, t)
    | Returned (true, t) => Returned (0, t)
    end
  end.
(** isocodes_lookup.cpp:464-471: the directory; back() of an empty string is undefined. *)
Definition directory (p : list Z) : out (list Z) :=
  match rev p with [] => UB | c :: _ => Ret (if c =? 0x2F then p else p ++ [0x2F]) end.
(** isocodes_lookup.cpp:457-516, isocodes_init. *)
Definition isocodes_init (l : lib) (path : option (list Z)) (s : isocodes) : out (ended (Z * isocodes)) :=
  let* dir := directory (match path with Some p => p | None => iso_path l end) in
  match load l (dir ++ lit "iso_3166-1.json") build_country_list (countries s) 1 with
  | Terminated => Ret Terminated
  | Returned (r, t) =>
    let s := mkIso t (currencies s) (languages s) in
    if negb (r =? 0) then Ret (Returned (r, s))
    else
      match load l (dir ++ lit "iso_4217.json") build_currency_list (currencies s) 2 with
      | Terminated => Ret Terminated
      | Returned (r, t) =>
        let s := mkIso (countries s) t (languages s) in
        if negb (r =? 0) then Ret (Returned (r, s))
        else
          match load l (dir ++ lit "iso_639-2.json") build_language_list (languages s) 3 with
          | Terminated => Ret Terminated
          | Returned (r, t) => Ret (Returned (r, mkIso (countries s) (currencies s) t))
          end
      end
  end.

(** isocodes_lookup.cpp:518-593: the seven lookups; [None] is NULL. *)
Definition looked {K} (eqk : K -> K -> bool) (k : K) (m : list (K * ref)) (v : vec) : out (option (list Z)) :=
  match find eqk k m with
  | None => Ret None
  | Some r => let* e := deref v r in Ret (Some (e_name e))
  end.
Definition country_by_alpha2 (s : isocodes) (k : list Z) := looked eqs k (t_alpha2 (countries s)) (t_vec (countries s)).
Definition country_by_alpha3 (s : isocodes) (k : list Z) := looked eqs k (t_alpha3 (countries s)) (t_vec (countries s)).
Definition country_by_numeric (s : isocodes) (k : Z) := looked Z.eqb k (t_numeric (countries s)) (t_vec (countries s)).
Definition currency_by_alpha3 (s : isocodes) (k : list Z) := looked eqs k (t_alpha3 (currencies s)) (t_vec (currencies s)).
Definition currency_by_numeric (s : isocodes) (k : Z) := looked Z.eqb k (t_numeric (currencies s)) (t_vec (currencies s)).
Definition language_by_alpha2 (s : isocodes) (k : list Z) := looked eqs k (t_alpha2 (languages s)) (t_vec (languages s)).
Definition language_by_alpha3 (s : isocodes) (k : list Z) := looked eqs k (t_alpha3 (languages s)) (t_vec (languages s)).

(** ** mcc_lookup.cpp *)
(** mcc_lookup.cpp:41-85, mcc_map_add. *)
Definition mcc_add (l : lib) (j : json) (m : list (Z * list Z)) : option (list (Z * list Z)) :=
  match get (lit "mcc") j with
  | None => None
  | Some mcc =>
  let n := get_int64 mcc in
  if n <=? 0 then None
  else
    match get (lit "edited_description") j with
    | None => None
    | Some d => Some (assign Z.eqb (u32 n) (get_string l d) m)
    end
  end.
(** mcc_lookup.cpp:133-172, build_mcc_list. *)
Definition build_mcc_list (l : lib) (root : json) (m : list (Z * list Z)) : bool * list (Z * list Z) :=
  match root with
  | JArr a => if (length a =? 0)%nat then (false, m) else json_c_visit (array_visit (mcc_add l)) root m
  | _ => (false, m)
  end.
(** mcc_lookup.cpp:174-200, mcc_init. *)
Definition mcc_init (l : lib) (path : option (list Z)) (m : list (Z * list Z)) : Z * list (Z * list Z) :=
  match from_file l (match path with Some p => p | None => mcc_path l end) with
  | None => (1, m)
  | Some root => let '(ok, m) := build_mcc_list l root m in (if ok then 0 else -1, m)
  end.
(** mcc_lookup.cpp:202-211, mcc_lookup. *)
Definition mcc_lookup (m : list (Z * list Z)) (mcc : Z) : option (list Z) := find Z.eqb mcc m.

(** emv_strings.c:73-88, emv_strings_init: the tables of both. *)
Definition strings_init (l : lib) (isocodes_path mcc_path : option (list Z)) (s : isocodes * list (Z * list Z))
  : out (ended (Z * (isocodes * list (Z * list Z)))) :=
  let* e := isocodes_init l isocodes_path (fst s) in
  match e with
  | Terminated => Ret Terminated
  | Returned (r, i) =>
    if negb (r =? 0) then Ret (Returned (r, (i, snd s)))
    else let '(r, m) := mcc_init l mcc_path (snd s) in Ret (Returned (r, (i, m)))
  end.
