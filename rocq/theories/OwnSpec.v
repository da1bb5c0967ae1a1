(** Specification of who owns the applications. *)
From Verif Require Import Base AppModel AppSpec.

Definition live (h : aheap) (a : nat) : Prop := exists n, nth_error h a = Some (Some n).
(** The list [l] carries the applications [apps]; the nodes that are allocated are
    those of the list and [others], and no node is both. *)
Definition holds (h : aheap) (l : alist) (apps : list emvapp) (others : list nat) : Prop :=
  exists cs, arep h l cs /\ map snd cs = apps /\ NoDup (map fst cs ++ others) /\
    forall a, live h a <-> In a (map fst cs ++ others).
Definition untouched (h h' : aheap) (others : list nat) : Prop :=
  forall a, In a others -> nth_error h' a = nth_error h a.
(** The selected application is a node of its own. *)
Definition selected (h : aheap) (sel : option nat) (a : option emvapp) : Prop :=
  match sel, a with
  | Some p, Some a => loose h p a
  | None, None => True
  | _, _ => False
  end.
Definition ptr (sel : option nat) : list nat := match sel with Some p => [p] | None => [] end.
(** Two programs go in step: the second ends exactly when the first does, and then
    the results are related. *)
Definition in_step {A B} (R : A -> B -> Prop) (m : out A) (m' : out B) : Prop :=
  match m with
  | Ret a => exists b, m' = Ret b /\ R a b
  | UB => m' = UB
  | NoFuel => m' = NoFuel
  end.
