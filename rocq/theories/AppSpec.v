(** Specification of application lists, matching and display names. *)
From Coq Require Export Permutation Sorted.
From Verif Require Import Base TlvListModel TlvSpec Iso8859Spec AppModel.

(** ** Lists: a chain of heap nodes that carries the given applications *)
Notation cell := (nat * emvapp)%type.
Inductive chain (h : aheap) : option nat -> list cell -> Prop :=
| ch_nil : chain h None []
| ch_cons a ap nx cs : nth_error h a = Some (Some (mkAN ap nx)) -> chain h nx cs ->
    chain h (Some a) ((a, ap) :: cs).
Fixpoint last_addr (cs : list cell) : option nat :=
  match cs with [] => None | [(a, _)] => Some a | _ :: r => last_addr r end.
Definition arep (h : aheap) (l : alist) (cs : list cell) : Prop :=
  chain h (al_front l) cs /\ al_back l = last_addr cs /\ NoDup (map fst cs).
(** A node that is in no list. *)
Definition loose (h : aheap) (a : nat) (ap : emvapp) : Prop := nth_error h a = Some (Some (mkAN ap None)).
(** [h'] agrees with [h] outside the given nodes. *)
Definition frame (h h' : aheap) (addrs : list nat) : Prop :=
  forall x, ~ In x addrs -> nth_error h' x = nth_error h x.

(** ** Priorities: 1 is the highest, 0 means none and comes last. *)
Definition prio (c : cell) : Z := a_prio (snd c).
Definition before (c d : cell) : Prop := prio d = 0 \/ (prio c <> 0 /\ prio c <= prio d).
Definition with_prio (p : Z) (cs : list cell) : list cell := filter (fun c => prio c =? p) cs.
(** A stable sort by priority. *)
Definition stable_sort (cs cs' : list cell) : Prop :=
  Permutation cs cs' /\ StronglySorted before cs' /\ forall p, with_prio p cs' = with_prio p cs.

(** ** Matching of AIDs (EMV Book 1, 12.3.1): flag 0 exact, flag 1 partial. *)
Definition wf_field (f : field) : Prop := f_len f = Zlen (f_val f) /\ bytes (f_val f) /\ small (f_val f).
Definition aid_matches (aid t : field) : Prop :=
  (f_flags t = 0 /\ f_val t = f_val aid) \/ (f_flags t = 1 /\ exists rest, f_val aid = f_val t ++ rest).

(** ** Display names *)
Definition first_with (tag : Z) (l : list field) (f : field) : Prop :=
  exists pre post, l = pre ++ f :: post /\ Forall (fun g => f_tag g <> tag) pre /\ f_tag f = tag.
Definition absent (tag : Z) (l : list field) : Prop := Forall (fun g => f_tag g <> tag) l.
(** [tables] is the list in which the code table index is looked up: that of the PSE
    or the application's own.  The characters of the preferred name that can be
    displayed, if it can be interpreted at all. *)
Definition preferred (tables tlvs : list field) (cs : list Z) : Prop :=
  exists idx t, first_with 0x9F11 tables idx /\ f_val idx = [1] /\ first_with 0x9F12 tlvs t /\
    cs = firstn 16 (filter non_control (f_val t)) /\ cs <> [].
Inductive display (tables tlvs : list field) (aid : list Z) : list Z -> Prop :=
| d_preferred cs u : preferred tables tlvs cs -> utf8_text cs u -> display tables tlvs aid u
| d_label t : (forall cs, ~ preferred tables tlvs cs) -> first_with 0x50 tlvs t ->
    display tables tlvs aid (firstn 32 (filter alnum_space (f_val t)))
| d_aid : (forall cs, ~ preferred tables tlvs cs) -> absent 0x50 tlvs -> aid <> [] ->
    display tables tlvs aid (firstn 32 (hex_text aid)).

(** Priority and confirmation from the priority indicator. *)
Definition priority_of (tlvs : list field) (p : Z) (conf : bool) : Prop :=
  (absent 0x87 tlvs /\ p = 0 /\ conf = false) \/
  (exists t, first_with 0x87 tlvs t /\ f_val t = [] /\ p = 0 /\ conf = false) \/
  (exists t b rest, first_with 0x87 tlvs t /\ f_val t = b :: rest /\ p = b mod 16 /\ (conf = true <-> 128 <= b)).

(** An application whose identifier, display name and priority are as its TLV
    fields say. *)
Definition good_app (tables : list field) (aid_tag : Z) (a : emvapp) : Prop :=
  first_with aid_tag (a_tlvs a) (a_aid a) /\
  (exists txt, display tables (a_tlvs a) (f_val (a_aid a)) txt /\ text_in (repeat 0 33) (a_name a) txt) /\
  priority_of (a_tlvs a) (a_prio a) (a_conf a).
