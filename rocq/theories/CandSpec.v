(** Specification of who owns the fields of applications. *)
From Verif Require Import Base TlvListModel TlvListProofs AppModel EmvModel HoldModel HoldSpec CandModel.

(** The application [a] over nodes: its list, at the addresses [addrs]; its AID is one of these fields. *)
Definition app_at (h : heap) (addrs : list nat) (ha : happ) (a : emvapp) : Prop :=
  rep h (ha_list ha) addrs (a_tlvs a) /\ at_addr addrs (a_tlvs a) (ha_aid ha) (a_aid a) /\
  ha_name ha = a_name a /\ ha_prio ha = a_prio a /\ ha_conf ha = a_conf a.
(** A list of applications; [addrs] are the addresses of all their fields. *)
Inductive apps_at (h : heap) : list nat -> list happ -> list emvapp -> Prop :=
| apps_none : apps_at h [] [] []
| apps_one A ha a As has apps : app_at h A ha a -> apps_at h As has apps -> apps_at h (A ++ As) (ha :: has) (a :: apps).
(** A context and a list of applications: each field that is allocated is in exactly one of their lists, or in [others]. *)
Definition all_rep (h : heap) (hc : hctx) (has : list happ) (c : ctx) (apps : list emvapp) (others : list nat) : Prop :=
  exists As, apps_at h As has apps /\ ctx_rep h hc c (As ++ others).
