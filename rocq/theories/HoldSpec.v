(** Specification of who owns the fields. *)
From Verif Require Import Base TlvListModel TlvListProofs AppModel TalModel EmvModel HoldModel.

(** How often an address occurs; whether a node is allocated. *)
Definition occ (l : list nat) (a : nat) : nat := count_occ Nat.eq_dec l a.
Definition allocated (h : heap) (a : nat) : nat := match load h a with Ret _ => 1 | _ => 0 end.
(** Every allocated node has exactly one owner, and nobody owns a node that is not
    allocated. *)
Definition owns (h : heap) (owners : list nat) : Prop := forall a, occ owners a = allocated h a.
(** A node that was allocated and is no more. *)
Definition dead (h : heap) (a : nat) : Prop := (a < length h)%nat /\ load h a = UB.
(** What belongs to [others] is as before, and what was released stays so. *)
Definition mild (h h' : heap) (others : list nat) : Prop :=
  (forall a, In a others -> load h' a = load h a) /\ (forall a, dead h a -> dead h' a).
(** The field [f] is the one at address [p] of the list with addresses [addrs]. *)
Definition at_addr (addrs : list nat) (fs : list field) (p : nat) (f : field) : Prop := In (p, f) (combine addrs fs).

(** The selected application: its list, and the field that [aid] points to, which is
    in its own list, in [icc], or released. *)
Definition app_rep (h : heap) (icc_a : list nat) (icc : list field) (app_a : list nat)
  (app_ : option (tlist * nat)) (k : option (emvapp * aid_at)) : Prop :=
  match app_, k with
  | None, None => app_a = []
  | Some (tl, p), Some (a, w) => rep h tl app_a (a_tlvs a) /\
    match w with
    | InApp => at_addr app_a (a_tlvs a) p (a_aid a)
    | InIcc => at_addr icc_a icc p (a_aid a)
    | Gone => dead h p
    end
  | _, _ => False
  end.
(** The lists of a context carry the fields of [c], and every allocated field is in
    exactly one place: one of these lists, or [others]. *)
Definition ctx_rep (h : heap) (hc : hctx) (c : ctx) (others : list nat) : Prop :=
  exists config_a params_a app_a icc_a term_a,
    rep h (c_config hc) config_a (k_config c) /\ rep h (c_params hc) params_a (k_params c) /\
    app_rep h icc_a (k_icc c) app_a (c_app hc) (k_app c) /\
    rep h (c_icc hc) icc_a (k_icc c) /\ rep h (c_term hc) term_a (k_term c) /\
    owns h (config_a ++ params_a ++ app_a ++ icc_a ++ term_a ++ others).
(** A pointer that emv_tal_get_processing_options gives out: NULL, at a field of the
    list, or at a field that was released. *)
Definition points (h : heap) (A : list nat) (fs : list field) (g : gptr) (p : option nat) : Prop :=
  match g, p with
  | GNull, None => True
  | GLive f, Some a => at_addr A fs a f
  | GFreed, Some a => dead h a
  | _, _ => False
  end.
