(** Model of src/emv_app.c: applications and application lists (the latter at the
    level of heap nodes and pointers).  ISO 8859 conversion is the "simple"
    implementation. *)
From Verif Require Import Base BerModel TlvListModel TlvModel DolModel Iso8859Model.

(** emv_app.h:36-79, struct emv_app_t without the [next] pointer.  [aid] points to
    a field of [tlv_list]; it is modelled as that field.  [a_name] is the
    33-octet display name buffer. *)
Record emvapp := mkApp { a_aid : field; a_name : list Z; a_prio : Z; a_conf : bool; a_tlvs : list field }.

(** strlen: a checked search for the terminator. *)
Fixpoint strlen (l : list Z) : out nat :=
  match l with
  | [] => UB
  | b :: l' => if b =? 0 then Ret O else let* n := strlen l' in Ret (S n)
  end.

(** emv_app.c:146-241, emv_app_extract_display_name: return code and display name.
    [pse] is the PSE's list when created from a PSE entry.  [junk] is the
    uninitialised [app_preferred_name] (17 octets). *)
Definition extract_display_name (junk : list Z) (pse : option (list field)) (aid : field) (tlvs : list field)
  (name : list Z) : out (Z * list Z) :=
  let index := find_tag 0x9F11 (match pse with Some l => l | None => tlvs end) in   (* 161-165 *)
  let* table := match index with                                                    (* 166-173 *)
    | Some t => if f_len t =? 1 then let* v := rd (f_val t) 0 in
                  Ret (if iso8859_is_supported v then v else 0) else Ret 0
    | None => Ret 0 end in
  let* preferred :=                                                                 (* 174-208 *)
    if table =? 0 then Ret None
    else match find_tag 0x9F12 tlvs with
    | None => Ret None
    | Some t =>
      let* v := sub (f_val t) 0 (Z.to_nat (f_len t)) in
      let* (r, s) := ans_to_non_control_str v junk in
      if r =? 0 then
        let* n := strlen s in
        let* (r, name') := iso8859_to_utf8 table (firstn n s) name in
        Ret (Some (r, name'))
      else Ret None
    end in
  let name := match preferred with Some (_, name') => name' | None => name end in
  match preferred with
  | Some (0, name') => Ret (0, name')
  | _ =>
    match find_tag 0x50 tlvs with                                                   (* 211-226 *)
    | Some t =>
      let* v := sub (f_val t) 0 (Z.to_nat (f_len t)) in
      let* (_, name) := ans_to_alnum_space_str v name in Ret (0, name)
    | None =>                                                                       (* 233-240 *)
      let* v := sub (f_val aid) 0 (Z.to_nat (f_len aid)) in
      b_to_str v name
    end
  end.

(** emv_app.c:243-265, emv_app_extract_priority_indicator. *)
Definition extract_priority (tlvs : list field) : out (Z * bool) :=
  match find_tag 0x87 tlvs with
  | Some t => if f_len t <? 1 then Ret (0, false)
      else let* v := rd (f_val t) 0 in Ret (Z.land v 0x0F, negb (Z.land v 0x80 =? 0))
  | None => Ret (0, false)
  end.

(** The common part of emv_app.c:65-80 and 122-137. *)
Definition app_build (junk : list Z) (pse : option (list field)) (aid_tag : Z) (tlvs : list field) : out (option emvapp) :=
  match find_tag aid_tag tlvs with
  | None => Ret None
  | Some aid =>
    let* (r, name) := extract_display_name junk pse aid tlvs (repeat 0 33) in
    if negb (r =? 0) then Ret None
    else let* (prio, conf) := extract_priority tlvs in
         Ret (Some (mkApp aid name prio conf tlvs))
  end.

(** emv_app.c:38-86, emv_app_create_from_pse ([None] = NULL; the partly built
    application is freed). *)
Definition app_create_from_pse (junk : list Z) (pse : list field) (entry : list Z) : out (option emvapp) :=
  let* (r, tlvs) := tlv_parse entry [] in
  if negb (r =? 0) then Ret None else app_build junk (Some pse) 0x4F tlvs.

(** emv_app.c:88-144, emv_app_create_from_fci.  [r != fci_len] compares an [int]
    with a [size_t]: a negative [r] is converted to a huge number. *)
Definition app_create_from_fci (junk : list Z) (fci : list Z) : out (option emvapp) :=
  let* (r, t) := ber_decode fci in
  if negb (u64 r =? Zlen fci) then Ret None
  else match t with
  | None => UB
  | Some t =>
    if negb (b_tag t =? 0x6F) then Ret None
    else
    let* (r, tlvs) := tlv_parse (b_val t) [] in
    if negb (r =? 0) then Ret None else app_build junk None 0x84 tlvs
  end.

(** emv_app.c:284-316, emv_app_is_supported.  Flags EMV_ASI_EXACT_MATCH 0,
    EMV_ASI_PARTIAL_MATCH 1; memcmp is a checked read of both operands. *)
Definition mem_equal (a b : list Z) (n : nat) : out bool :=
  let* x := sub a 0 n in let* y := sub b 0 n in
  Ret (if list_eq_dec Z.eq_dec x y then true else false).
Fixpoint app_is_supported (aid : field) (supported : list field) : out bool :=
  match supported with
  | [] => Ret false
  | t :: rest =>
    let* exact := if ((f_flags t =? 0) && (f_len t =? f_len aid))%bool
                  then mem_equal (f_val t) (f_val aid) (Z.to_nat (f_len t)) else Ret false in
    if exact then Ret true else
    let* partial := if ((f_flags t =? 1) && (f_len t <=? f_len aid))%bool
                    then mem_equal (f_val t) (f_val aid) (Z.to_nat (f_len t)) else Ret false in
    if partial then Ret true else app_is_supported aid rest
  end.

(** ** Application lists *)
Record anode := mkAN { an_app : emvapp; an_next : option nat }.
Definition aheap := list (option anode).
Definition aload (h : aheap) (a : nat) : out anode :=
  match nth_error h a with Some (Some n) => Ret n | _ => UB end.
Definition astore (h : aheap) (a : nat) (n : anode) : out aheap :=
  let* _ := aload h a in Ret (upd h a (Some n)).
(** [p->next = q]. *)
Definition set_next (h : aheap) (a : nat) (q : option nat) : out aheap :=
  let* n := aload h a in astore h a (mkAN (an_app n) q).

(** emv_app.h:85-88, struct emv_app_list_t. *)
Record alist := mkAL { al_front : option nat; al_back : option nat }.
Definition alist_init := mkAL None None.
(** emv_app.c:318-333, emv_app_list_is_valid (list not NULL). *)
Definition alist_valid (l : alist) : bool :=
  match al_front l, al_back l with
  | Some _, None => false | None, Some _ => false | _, _ => true
  end.

(** emv_app.c:368-388, emv_app_list_push (app not NULL). *)
Definition alist_push (h : aheap) (l : alist) (a : nat) : out (Z * aheap * alist) :=
  if negb (alist_valid l) then Ret (-1, h, l)
  else
  let* (h, l) := match al_back l with
    | Some b => let* h := set_next h b (Some a) in Ret (h, mkAL (al_front l) (Some a))
    | None => Ret (h, mkAL (Some a) (Some a)) end in
  let* h := set_next h a None in Ret (0, h, l).

(** emv_app.c:390-409, emv_app_list_pop. *)
Definition alist_pop (h : aheap) (l : alist) : out (option nat * aheap * alist) :=
  if negb (alist_valid l) then Ret (None, h, l)
  else match al_front l with
  | None => Ret (None, h, l)
  | Some a =>
    let* n := aload h a in
    let l := mkAL (an_next n) (match an_next n with None => None | Some _ => al_back l end) in
    let* h := set_next h a None in
    Ret (Some a, h, l)
  end.

(** emv_app.c:411-443, emv_app_list_remove_index. *)
Fixpoint remove_loop (fuel : nat) (h : aheap) (l : alist) (prev cur : option nat) (index : nat)
  : out (option nat * aheap * alist) :=
  match fuel with
  | O => NoFuel
  | S fuel =>
    match cur with
    | None => Ret (None, h, l)
    | Some a =>
      match index with
      | O =>
        match prev with
        | None => alist_pop h l
        | Some p =>
          let* n := aload h a in
          let* h := set_next h p (an_next n) in
          let l := match an_next n with None => mkAL (al_front l) (Some p) | Some _ => l end in
          let* h := set_next h a None in
          Ret (Some a, h, l)
        end
      | S index =>
        let* n := aload h a in
        remove_loop fuel h l (Some a) (an_next n) index
      end
    end
  end.
Definition alist_remove_index (fuel : nat) (h : aheap) (l : alist) (index : nat) : out (option nat * aheap * alist) :=
  if negb (alist_valid l) then Ret (None, h, l) else remove_loop fuel h l None (al_front l) index.

(** emv_app.c:445-474, emv_app_list_insert. *)
Definition alist_insert (h : aheap) (l : alist) (pos a : nat) : out (Z * aheap * alist) :=
  if negb (alist_valid l) then Ret (-1, h, l)
  else if (match al_back l with Some b => Nat.eqb b pos | None => false end) then alist_push h l a
  else
    let* n := aload h pos in
    match an_next n with
    | Some _ =>
      let* h := set_next h a (an_next n) in
      let* h := set_next h pos (Some a) in
      Ret (0, h, l)
    | None => Ret (-4, h, l)
    end.

(** emv_app.c:476-498, emv_app_list_push_front. *)
Definition alist_push_front (h : aheap) (l : alist) (a : nat) : out (Z * aheap * alist) :=
  if negb (alist_valid l) then Ret (-1, h, l)
  else match al_front l with
  | Some f => let* h := set_next h a (Some f) in Ret (0, h, mkAL (Some a) (al_back l))
  | None => Ret (0, h, mkAL (Some a) (Some a))
  end.

(** emv_app.c:513-531: the search for the position in the sorted list. *)
Fixpoint find_pos (fuel : nat) (h : aheap) (prio : Z) (cur pos : option nat) : out (option nat) :=
  match fuel with
  | O => NoFuel
  | S fuel =>
    match cur with
    | None => Ret pos
    | Some c =>
      let* n := aload h c in
      if a_prio (an_app n) =? 0 then Ret pos
      else if (negb (prio =? 0) && (prio <? a_prio (an_app n)))%bool then Ret pos
      else find_pos fuel h prio (an_next n) (Some c)
    end
  end.

(** emv_app.c:512-541: the sorting loop.  (The error path 537-540 clears the sorted
    list without freeing being modelled; it cannot be reached from a valid list.) *)
Fixpoint sort_loop (fuel : nat) (h : aheap) (l sorted : alist) : out (Z * aheap * alist) :=
  match fuel with
  | O => NoFuel
  | S fuel =>
    let* (p, h, l) := alist_pop h l in
    match p with
    | None => Ret (0, h, sorted)
    | Some a =>
      let* n := aload h a in
      let* pos := find_pos (S (length h)) h (a_prio (an_app n)) (al_front sorted) None in
      let* (r, h, sorted) := match pos with
        | Some p => alist_insert h sorted p a
        | None => alist_push_front h sorted a end in
      if negb (r =? 0) then Ret (-2, h, alist_init) else sort_loop fuel h l sorted
    end
  end.
(** emv_app.c:500-544, emv_app_list_sort_priority. *)
Definition alist_sort_priority (fuel : nat) (h : aheap) (l : alist) : out (Z * aheap * alist) :=
  if negb (alist_valid l) then Ret (-1, h, l) else sort_loop fuel h l alist_init.

(** emv_app.c:546-567, emv_app_list_selection_is_required. *)
Fixpoint sel_loop (fuel : nat) (h : aheap) (cur : option nat) (count : nat) : out bool :=
  match fuel with
  | O => NoFuel
  | S fuel =>
    match cur with
    | None => Ret false
    | Some c =>
      let* n := aload h c in
      if a_conf (an_app n) then Ret true
      else if (1 <? S count)%nat then Ret true
      else sel_loop fuel h (an_next n) (S count)
    end
  end.
Definition alist_selection_is_required (fuel : nat) (h : aheap) (l : alist) : out bool :=
  if negb (alist_valid l) then Ret false else sel_loop fuel h (al_front l) 0.

(** emv_app.c:267-282, emv_app_free (app not NULL). *)
Definition app_free (h : aheap) (a : nat) : out (Z * aheap) :=
  let* n := aload h a in
  match an_next n with Some _ => Ret (1, h) | None => Ret (0, upd h a None) end.

(** emv_app.c:346-366, emv_app_list_clear. *)
Fixpoint clear_loop (fuel : nat) (h : aheap) (l : alist) : out (aheap * alist) :=
  match fuel with
  | O => NoFuel
  | S fuel =>
    match al_front l with
    | None => Ret (h, l)
    | Some _ =>
      let* (p, h, l) := alist_pop h l in
      match p with
      | None => UB
      | Some a => let* (_, h) := app_free h a in clear_loop fuel h l
      end
    end
  end.
Definition alist_clear (fuel : nat) (h : aheap) (l : alist) : out (aheap * alist) :=
  if negb (alist_valid l) then Ret (h, mkAL None None) else clear_loop fuel h l.

(** ** Lists as sequences of applications.
    Above this file an application list is the [list] of its applications (C36, C37
    and C65 relate the operations on heap nodes to sequences). *)
Fixpoint insert_priority (a : emvapp) (l : list emvapp) : list emvapp :=
  match l with
  | [] => [a]
  | d :: r => if a_prio d =? 0 then a :: d :: r
              else if (negb (a_prio a =? 0) && (a_prio a <? a_prio d))%bool then a :: d :: r
              else d :: insert_priority a r
  end.
Definition sort_priority (l : list emvapp) : list emvapp :=
  fold_left (fun d a => insert_priority a d) l [].
