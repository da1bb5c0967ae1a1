(** Specification of TLV list histories: every list is a mathematical sequence. *)
From Verif Require Import Base TlvListModel.

Record smachine := mkS { s_lists : list (list field); s_held : list field }.

(** First field with a tag. *)
Definition first_with (tag : Z) (l : list field) : option field :=
  find (fun f => f_tag f =? tag) l.

(** Some two different positions hold the same tag. *)
Fixpoint has_dup (l : list Z) : bool :=
  match l with
  | [] => false
  | x :: l' => existsb (Z.eqb x) l' || has_dup l'
  end.

Definition slist (m : smachine) (i : nat) : list field := nth i (s_lists m) [].
Definition set_list (m : smachine) (i : nat) (l : list field) : smachine :=
  mkS (upd (s_lists m) i l) (s_held m).

Definition sstep (m : smachine) (o : op) : res * smachine :=
  match o with
  | OPush i f => (RCode 0, set_list m i (slist m i ++ [f]))
  | OPop i =>
    match slist m i with
    | [] => (RField None, m)
    | f :: l => (RField (Some f), mkS (upd (s_lists m) i l) (s_held m ++ [f]))
    end
  | OFree =>
    match s_held m with
    | [] => (RCode (-1), m)
    | _ :: held => (RCode 0, mkS (s_lists m) held)
    end
  | OAppend i j => (RCode 0, set_list (set_list m i (slist m i ++ slist m j)) j [])
  | OClear i => (RCode 0, set_list m i [])
  | OFind i tag => (RField (first_with tag (slist m i)), m)
  | ODup i => (RBool (has_dup (map f_tag (slist m i))), m)
  | OEmpty i => (RBool (match slist m i with [] => true | _ => false end), m)
  end.

Fixpoint srun (m : smachine) (ops : list op) : list res * smachine :=
  match ops with
  | [] => ([], m)
  | o :: ops' =>
    let (r, m1) := sstep m o in
    let (rs, m2) := srun m1 ops' in (r :: rs, m2)
  end.

Definition sinit (k : nat) : smachine := mkS (repeat [] k) [].

(** Operations on existing lists, and append of two different lists. *)
Definition op_ok (k : nat) (o : op) : Prop :=
  match o with
  | OPush i _ | OPop i | OClear i | OFind i _ | ODup i | OEmpty i => (i < k)%nat
  | OFree => True
  | OAppend i j => (i < k)%nat /\ (j < k)%nat /\ i <> j
  end.
