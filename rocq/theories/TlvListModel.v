(** Model of the EMV TLV list of src/emv_tlv.c at the level of heap nodes and
    pointers. *)
From Verif Require Import Base.

(** A TLV field: src/emv_tlv.h lines 38-48 without the [next] pointer. *)
Record field := mkField { f_tag : Z; f_len : Z; f_val : list Z; f_flags : Z }.

(** src/emv_tlv.h lines 38-50 [struct emv_tlv_t].  The separately allocated
    value buffer is owned by the node; it is allocated and released together with
    it (emv_tlv.c lines 56-66 and 85-89), so it is modelled as part of it. *)
Record node := mkNode { n_field : field; n_next : option nat }.

(** The heap: cell [a] holds a live node, or [None] once released.  Allocation
    never fails and never reuses an address. *)
Definition heap := list (option node).
Definition load (h : heap) (a : nat) : out node :=
  match nth_error h a with Some (Some n) => Ret n | _ => UB end.
Definition store (h : heap) (a : nat) (n : node) : out heap :=
  let* _ := load h a in Ret (upd h a (Some n)).
Definition release (h : heap) (a : nat) : out heap :=
  let* _ := load h a in Ret (upd h a None).
Definition alloc (h : heap) (n : node) : nat * heap := (length h, h ++ [Some n]).

(** src/emv_tlv.h lines 56-59 [struct emv_tlv_list_t] *)
Record tlist := mkList { front : option nat; back : option nat }.
Definition tlist_init : tlist := mkList None None.

(** src/emv_tlv.c lines 35-50 [emv_tlv_list_is_valid] for a non-NULL list *)
Definition list_is_valid (l : tlist) : bool :=
  match front l, back l with
  | Some _, None => false
  | None, Some _ => false
  | _, _ => true
  end.

(** src/emv_tlv.c lines 75-92 [emv_tlv_free] for a non-NULL argument *)
Definition tlv_free (h : heap) (a : nat) : out (Z * heap) :=
  let* n := load h a in
  match n_next n with
  | Some _ => Ret (1, h)
  | None => let* h' := release h a in Ret (0, h')
  end.

(** src/emv_tlv.c lines 94-103 [emv_tlv_list_is_empty] *)
Definition list_is_empty (l : tlist) : bool :=
  if negb (list_is_valid l) then true
  else match front l with None => true | Some _ => false end.

(** src/emv_tlv.c lines 128-156 [emv_tlv_list_push], including [emv_tlv_alloc]
    (lines 52-73).  The memcpy source is the field's value. *)
Definition list_push (h : heap) (l : tlist) (f : field) : out (Z * heap * tlist) :=
  if negb (list_is_valid l) then Ret (-1, h, l)
  else
    let (a, h1) := alloc h (mkNode f None) in
    match back l with
    | Some b =>
      let* nb := load h1 b in
      let* h2 := store h1 b (mkNode (n_field nb) (Some a)) in
      Ret (0, h2, mkList (front l) (Some a))
    | None => Ret (0, h1, mkList (Some a) (Some a))
    end.

(** src/emv_tlv.c lines 158-177 [emv_tlv_list_pop] *)
Definition list_pop (h : heap) (l : tlist) : out (option nat * heap * tlist) :=
  if negb (list_is_valid l) then Ret (None, h, l)
  else match front l with
       | None => Ret (None, h, l)
       | Some a =>
         let* n := load h a in
         let l' := mkList (n_next n)
                     (match n_next n with None => None | Some _ => back l end) in
         let* h' := store h a (mkNode (n_field n) None) in
         Ret (Some a, h', l')
       end.

(** src/emv_tlv.c lines 105-126 [emv_tlv_list_clear].  A failing assert is [UB]. *)
Fixpoint list_clear_loop (fuel : nat) (h : heap) (l : tlist) : out (heap * tlist) :=
  match fuel with
  | O => NoFuel
  | S fuel' =>
    match front l with
    | None => match back l with None => Ret (h, l) | Some _ => UB end
    | Some _ =>
      let* (p, h1, l1) := list_pop h l in
      match p with
      | None => UB
      | Some a =>
        let* (r, h2) := tlv_free h1 a in
        if r =? 0 then list_clear_loop fuel' h2 l1 else UB
      end
    end
  end.
Definition list_clear (fuel : nat) (h : heap) (l : tlist) : out (heap * tlist) :=
  if negb (list_is_valid l) then Ret (h, mkList None None)
  else list_clear_loop fuel h l.

(** src/emv_tlv.c lines 179-194 [emv_tlv_list_find] *)
Fixpoint find_loop (fuel : nat) (h : heap) (p : option nat) (tag : Z) : out (option nat) :=
  match fuel with
  | O => NoFuel
  | S fuel' =>
    match p with
    | None => Ret None
    | Some a =>
      let* n := load h a in
      if f_tag (n_field n) =? tag then Ret (Some a) else find_loop fuel' h (n_next n) tag
    end
  end.
Definition list_find (fuel : nat) (h : heap) (l : tlist) (tag : Z) : out (option nat) :=
  if negb (list_is_valid l) then Ret None else find_loop fuel h (front l) tag.

(** src/emv_tlv.c lines 196-211 [emv_tlv_list_has_duplicate]; the inner loop
    (lines 203-207) is the search of [find_loop] from the next node. *)
Fixpoint dup_loop (fuel : nat) (h : heap) (p : option nat) : out bool :=
  match fuel with
  | O => NoFuel
  | S fuel' =>
    match p with
    | None => Ret false
    | Some a =>
      let* n := load h a in
      let* d := find_loop fuel' h (n_next n) (f_tag (n_field n)) in
      match d with
      | Some _ => Ret true
      | None => dup_loop fuel' h (n_next n)
      end
    end
  end.
Definition list_has_duplicate (fuel : nat) (h : heap) (l : tlist) : out bool :=
  if negb (list_is_valid l) then Ret false else dup_loop fuel h (front l).

(** src/emv_tlv.c lines 213-238 [emv_tlv_list_append] for two different list
    objects; the results are the new [list] and [other]. *)
Definition list_append (h : heap) (l other : tlist) : out (Z * heap * tlist * tlist) :=
  if negb (list_is_valid l) then Ret (-1, h, l, other)
  else if negb (list_is_valid other) then Ret (-2, h, l, other)
  else
    let* (h1, front1) :=
      match back l with
      | Some b =>
        let* nb := load h b in
        let* h1 := store h b (mkNode (n_field nb) (front other)) in
        Ret (h1, front l)
      | None => Ret (h, front other)
      end in
    let back1 := match back other with Some b => Some b | None => back l end in
    Ret (0, h1, mkList front1 back1, mkList None None).

(** The same function when [list] and [other] are the same object: every write
    to [other] is a write to [list]. *)
Definition list_append_self (h : heap) (l : tlist) : out (Z * heap * tlist) :=
  if negb (list_is_valid l) then Ret (-1, h, l)
  else
    let* (h1, l1) :=
      match back l with
      | Some b =>
        let* nb := load h b in
        let* h1 := store h b (mkNode (n_field nb) (front l)) in
        Ret (h1, l)
      | None => Ret (h, mkList (front l) (back l))
      end in
    Ret (0, h1, mkList None None).

(** How callers walk a list (e.g. src/emv.c, src/emv_app.c: 
    [for (tlv = list->front; tlv != NULL; tlv = tlv->next)]). *)
Fixpoint walk (fuel : nat) (h : heap) (p : option nat) : out (list field) :=
  match fuel with
  | O => NoFuel
  | S fuel' =>
    match p with
    | None => Ret []
    | Some a =>
      let* n := load h a in
      let* fs := walk fuel' h (n_next n) in
      Ret (n_field n :: fs)
    end
  end.

(** A caller with any number of list objects and any number of popped fields it
    still holds. *)
Record machine := mkMachine { m_heap : heap; m_lists : list tlist; m_held : list nat }.

Inductive op :=
| OPush (i : nat) (f : field)      (* emv_tlv_list_push on list i *)
| OPop (i : nat)                   (* emv_tlv_list_pop; the caller keeps the field *)
| OFree                            (* emv_tlv_free on the field popped first *)
| OAppend (i j : nat)              (* emv_tlv_list_append(list i, list j), i <> j *)
| OClear (i : nat)                 (* emv_tlv_list_clear *)
| OFind (i : nat) (tag : Z)        (* emv_tlv_list_find *)
| ODup (i : nat)                   (* emv_tlv_list_has_duplicate *)
| OEmpty (i : nat).                (* emv_tlv_list_is_empty *)

(** What the caller sees: a return code, a field (by value), or a boolean. *)
Inductive res :=
| RCode (r : Z) | RField (f : option field) | RBool (b : bool).

Definition fuel_for (h : heap) : nat := S (S (length h)).

Definition step (m : machine) (o : op) : out (res * machine) :=
  let h := m_heap m in
  match o with
  | OPush i f =>
    let* l := rd (m_lists m) i in
    let* (r, h', l') := list_push h l f in
    Ret (RCode r, mkMachine h' (upd (m_lists m) i l') (m_held m))
  | OPop i =>
    let* l := rd (m_lists m) i in
    let* (p, h', l') := list_pop h l in
    match p with
    | None => Ret (RField None, mkMachine h' (upd (m_lists m) i l') (m_held m))
    | Some a =>
      let* n := load h' a in
      Ret (RField (Some (n_field n)),
           mkMachine h' (upd (m_lists m) i l') (m_held m ++ [a]))
    end
  | OFree =>
    match m_held m with
    | [] => Ret (RCode (-1), m)                 (* NULL argument, lines 77-79 *)
    | a :: rest =>
      let* (r, h') := tlv_free h a in
      Ret (RCode r, mkMachine h' (m_lists m) rest)
    end
  | OAppend i j =>
    let* l := rd (m_lists m) i in
    let* other := rd (m_lists m) j in
    let* (r, h', l', other') := list_append h l other in
    Ret (RCode r, mkMachine h' (upd (upd (m_lists m) i l') j other') (m_held m))
  | OClear i =>
    let* l := rd (m_lists m) i in
    let* (h', l') := list_clear (fuel_for h) h l in
    Ret (RCode 0, mkMachine h' (upd (m_lists m) i l') (m_held m))
  | OFind i tag =>
    let* l := rd (m_lists m) i in
    let* p := list_find (fuel_for h) h l tag in
    match p with
    | None => Ret (RField None, m)
    | Some a => let* n := load h a in Ret (RField (Some (n_field n)), m)
    end
  | ODup i =>
    let* l := rd (m_lists m) i in
    let* b := list_has_duplicate (fuel_for h) h l in
    Ret (RBool b, m)
  | OEmpty i =>
    let* l := rd (m_lists m) i in
    Ret (RBool (list_is_empty l), m)
  end.

Fixpoint run (m : machine) (ops : list op) : out (list res * machine) :=
  match ops with
  | [] => Ret ([], m)
  | o :: ops' =>
    let* (r, m1) := step m o in
    let* (rs, m2) := run m1 ops' in
    Ret (r :: rs, m2)
  end.

Definition machine_init (k : nat) : machine := mkMachine [] (repeat tlist_init k) [].

(** Number of live nodes. *)
Definition live (h : heap) : nat :=
  length (filter (fun c => match c with Some _ => true | None => false end) h).
