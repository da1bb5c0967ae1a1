(** The descriptions of historical bytes (C118, C119). *)
From Coq Require Import String.
From Verif Require Import Base BaseLemmas StrModel FlagsModel TlvSpec StrSpec FlagsSpec FlagsProofs CardModel CardSpec CardProofs.
Open Scope string_scope.
Open Scope Z_scope.
Open Scope list_scope.
Notation length := List.length.

(** ** C118: card service data and card capabilities *)
Theorem C118_service_data b str : is_byte b ->
  exists new, service_list b str = Ret (0, new) /\ length new = length str /\ in_iso_lines str new (table_texts T_service [b]) /\
    ((300 < length str)%nat -> text_in str new (lines (table_texts T_service [b]))).
Proof.
  intros H. unfold service_list. rewrite service_run by exact H. cbn [bind]. destruct (iso_emit_listed 0 (table_texts T_service [b]) str) as (new & E & I).
  exists new. split; [exact E|]. split; [eapply in_iso_length; exact I|]. split; [exact I|]. intros L. eapply in_iso_all; [exact I|apply service_some, H|apply service_length, H|exact L].
Qed.
Theorem C118_capabilities v str : bytes v -> v <> [] ->
  (((length v < 3)%nat \/ range (octet v 3) 5 4 <> 3) ->
   exists new, caps_list v str = Ret (0, new) /\ length new = length str /\ in_iso_lines str new (caps_texts v) /\
     ((540 < length str)%nat -> caps_texts v <> [] -> text_in str new (lines (caps_texts v)))) /\
  ((3 <= length v)%nat -> range (octet v 3) 5 4 = 3 -> exists new, caps_list v str = Ret (-1, new) /\ length new = length str).
Proof.
  intros B N. split; [|apply caps_reserved; exact B]. intros R. destruct (caps_ok v str B N R) as (new & E & I).
  exists new. split; [exact E|]. split; [eapply in_iso_length; exact I|]. split; [exact I|]. intros L N2. eapply in_iso_all; [exact I|exact N2|apply caps_length, B|exact L].
Qed.
Theorem C118_no_capabilities str : caps_list [] str = Ret (-1, str).
Proof. reflexivity. Qed.
Definition listed (m : out (Z * list Z)) : option (Z * option (list Z)) := match m with Ret (r, new) => Some (r, cstring new) | _ => None end.
Example C118_ex :
  listed (service_list 0xC9 (repeat 7 400)) = Some (0, Some (lines (map lit
    ["Application selection: by full DF name"; "Application selection: by partial DF name";
     "EF.DIR and EF.ATR access services: by READ BINARY command (transparent structure)"; "Card without MF"]))) /\
  listed (caps_list [0x81; 0x23; 0x91] (repeat 7 600)) = Some (0, Some (lines (map lit
    ["DF selection: by full DF NAME"; "Record identifier supported"; "Behaviour of write functions: proprietary";
     "FF as first byte of BER-TLV tag is invalid / padding"; "Data unit size: 4 bytes"; "Command chaining";
     "Logical channel number assignment: by the card"; "Maximum number of logical channels: 2"]))) /\
  listed (caps_list [0x01] (repeat 7 30)) = Some (0, Some (lines [lit "Record identifier supported"])) /\
  listed (service_list 0x01 (repeat 7 20)) = Some (0, Some (lines [lit "Card without MF"])).
Proof. vm_compute. repeat split; reflexivity. Qed.

(** ** C119: names of data objects *)
Theorem C119_names k s : 0 <= k < 16 ->
  (ctlv_tag_string k = lit s <-> In (0x40 + k, s) ctlv_names \/ (s = "Unknown" /\ forall t, ~ In (0x40 + k, t) ctlv_names)).
Proof.
  intros R. assert (J : forall a b, lit a = lit b -> a = b).
  { induction a as [|x a IH]; intros [|y b] E; cbn in E; try discriminate; [reflexivity|]. injection E as E1 E2. rewrite (IH b E2). f_equal.
    apply Nat2Z.inj in E1. rewrite <- (Ascii.ascii_nat_embedding x), <- (Ascii.ascii_nat_embedding y), E1. reflexivity. }
  assert (M : forall t u, In (t, u) ctlv_names -> t mod 16 = k -> t = 0x40 + k).
  { intros t u I E. assert (0x41 <= t <= 0x4F) by (unfold ctlv_names in I; repeat (destruct I as [I|I]; [injection I as <- <-; lia|]); contradiction).
    pose proof (Z.div_mod t 16 ltac:(lia)). pose proof (Z.mod_pos_bound t 16 ltac:(lia)). lia. }
  assert (K : (0x40 + k) mod 16 = k) by (change (0x40 + k) with (4 * 16 + k); rewrite Z.add_comm, Z.mod_add, Z.mod_small; lia).
  assert (D : (exists u, In (0x40 + k, u) ctlv_names) \/ (forall u, ~ In (0x40 + k, u) ctlv_names)).
  { destruct (find (fun e => fst e =? 0x40 + k) ctlv_names) as [[t u]|] eqn:F.
    - apply find_some in F as (I & E). cbn in E. apply Z.eqb_eq in E. subst t. left. eauto.
    - right. intros u I. eapply find_none in F; [|exact I]. cbn in F. lia. }
  destruct D as [(u & I)|D].
  - pose proof (ctlv_name _ _ I) as E. rewrite K in E. rewrite E. split.
    + intros H. apply J in H. subst. left. exact I.
    + intros [H|(_ & H)]; [|elim (H u I)]. pose proof (ctlv_name _ _ H) as E2. rewrite K in E2. congruence.
  - rewrite ctlv_unknown; [|exact R|intros t u I E; apply (D u); rewrite <- (M t u I E); exact I]. split.
    + intros H. apply J in H. right. auto.
    + intros [H|(-> & _)]; [elim (D s H)|reflexivity].
Qed.
Example C119_ex : ctlv_tag_string 3 = lit "Card service data" /\ ctlv_tag_string 15 = lit "Application identifier (AID)" /\ ctlv_tag_string 9 = lit "Unknown".
Proof. vm_compute. auto. Qed.

Print Assumptions C118_service_data. Print Assumptions C118_capabilities. Print Assumptions C118_no_capabilities. Print Assumptions C119_names.
