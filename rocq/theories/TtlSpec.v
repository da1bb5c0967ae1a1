(** Specification of command APDUs and of the exchange of commands. *)
From Verif Require Import Base BerSpec.

(** ISO 7816-3:2006, 12.1.3: the well-formed command APDUs, by case. *)
Inductive acase := A1 | A2S | A2E | A3S | A3E | A4S | A4E.
Inductive command : acase -> list Z -> Prop :=
| cmd_1 h : length h = 4%nat -> command A1 h
| cmd_2s h le : length h = 4%nat -> command A2S (h ++ [le])
| cmd_2e h l1 l2 : length h = 4%nat -> command A2E (h ++ [0; l1; l2])
| cmd_3s h d : length h = 4%nat -> 1 <= Zlen d <= 255 -> command A3S (h ++ [Zlen d] ++ d)
| cmd_4s h d le : length h = 4%nat -> 1 <= Zlen d <= 255 -> command A4S (h ++ [Zlen d] ++ d ++ [le])
| cmd_3e h a b d : length h = 4%nat -> 1 <= Zlen d -> be [a; b] = Zlen d ->
    command A3E (h ++ [0; a; b] ++ d)
| cmd_4e h a b d l1 l2 : length h = 4%nat -> 1 <= Zlen d -> be [a; b] = Zlen d ->
    command A4E (h ++ [0; a; b] ++ d ++ [l1; l2]).

(** ** Cards *)
Section Cards.
Context {S : Type} (card : S -> list Z -> S * (Z * list Z)).

(** The reader callback respects the size of the buffer it is given. *)
Definition respects_buffer : Prop := forall s tx, Zlen (snd (snd (card s tx))) <= 258.

(** What the card does when it is sent the commands [txs] one after the other. *)
Fixpoint talk (s : S) (txs : list (list Z)) : S * list (Z * list Z) :=
  match txs with
  | [] => (s, [])
  | tx :: txs' =>
    let '(s1, r) := card s tx in
    let '(s2, rs) := talk s1 txs' in (s2, r :: rs)
  end.

(** The same card, with a log of everything sent to it. *)
Definition logged : (S * list (list Z)) -> list Z -> (S * list (list Z)) * (Z * list Z) :=
  fun '(s, log) tx => let '(s', r) := card s tx in ((s', log ++ [tx]), r).
End Cards.

(** ** Chained responses (APDU mode) *)
(** 61XX: data and the number XX of octets still available; 6CXX: data and the
    right value of Le. *)
Inductive link := L61 (d : list Z) (xx : Z) | L6C (d : list Z) (xx : Z).
Definition link_data (l : link) := match l with L61 d _ | L6C d _ => d end.
Definition link_rx (l : link) :=
  match l with L61 d xx => d ++ [0x61; xx] | L6C d xx => d ++ [0x6C; xx] end.
(** The command that has to follow a link, given the current one. *)
Definition link_next (cur : list Z) (l : link) : list Z :=
  match l with
  | L61 _ xx => [0x00; 0xC0; 0x00; 0x00; xx]
  | L6C _ xx => firstn 4 cur ++ [xx]
  end.
(** All commands sent, starting with [cur]. *)
Fixpoint chain_commands (cur : list Z) (ls : list link) : list (list Z) :=
  cur :: match ls with [] => [] | l :: ls' => chain_commands (link_next cur l) ls' end.
Definition chain_data (ls : list link) : list Z := flat_map link_data ls.

(** A card that answers with the given replies, one after the other. *)
Definition script (replies : list (list Z)) (tx : list Z) : list (list Z) * (Z * list Z) :=
  match replies with [] => ([], (0, [])) | r :: rest => (rest, (0, r)) end.
