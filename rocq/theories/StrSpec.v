(** Specification of the text formats, independent of the model. *)
From Verif Require Import Base TlvSpec.
Open Scope Z_scope.

(** Decimal digits, their characters and the number they denote. *)
Definition digits (ds : list Z) : Prop := Forall (fun d => 0 <= d <= 9) ds.
Definition chars (ds : list Z) : list Z := map (fun d => 48 + d) ds.
Definition number (ds : list Z) : Z := fold_left (fun a d => a * 10 + d) ds 0.
(** [ds] is the usual decimal notation of [v]: no leading zeros. *)
Definition decimal (v : Z) (ds : list Z) : Prop :=
  digits ds /\ number ds = v /\ ds <> [] /\ (hd 0 ds = 0 -> ds = [0]).

(** The nibbles of a field, high nibble first. *)
Definition nibbles (l : list Z) : list Z := flat_map (fun b => [b / 16; b mod 16]) l.
(** The nibbles before the first F. *)
Fixpoint before_pad (ns : list Z) : list Z :=
  match ns with [] => [] | n :: t => if n =? 15 then [] else n :: before_pad t end.

(** The text of a string list: every text followed by a newline. *)
Definition lines (texts : list (list Z)) : list Z := flat_map (fun t => t ++ [10]) texts.
(** The string in a buffer: the characters before the first NUL, if there is one. *)
Fixpoint cstring (buf : list Z) : option (list Z) :=
  match buf with
  | [] => None
  | c :: t => if c =? 0 then Some [] else match cstring t with Some s => Some (c :: s) | None => None end
  end.
Definition is_text (s : list Z) : Prop := Forall (fun c => c <> 0 /\ c <> 10) s.
(** The digit of a character. *)
Definition dig (c : Z) : Z := c - 48.
(** [cut n texts c]: [c] is the lines of [texts] in a buffer of [n] chars, cut when it is full. *)
Definition cut (n : nat) (texts : list (list Z)) (c : list Z) : Prop :=
  c = lines texts \/
  exists k, (k < length texts)%nat /\
    ((c = lines (firstn k texts) /\ (n < length c + 3)%nat) \/
     exists m, (m < length (nth k texts []))%nat /\ c = lines (firstn k texts) ++ firstn m (nth k texts []) ++ [10] /\ n = S (length c)).
(** The ISO 7816 variant leaves out every text that does not fit. *)
Fixpoint fitting (n : nat) (texts : list (list Z)) : list (list Z) :=
  match texts with
  | [] => []
  | t :: ts => if (length t + 2 <=? n)%nat then t :: fitting (n - (length t + 1)) ts else fitting n ts
  end.
