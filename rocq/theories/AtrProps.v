(** Property theorems C41-C44 and C72-C74: answers to reset. *)
From Verif Require Import Base DolSpec EmvModel AtrModel AtrSpec AtrProofs.

(** Shorthand for examples: no interface bytes but the ones given. *)
Definition gr a b c d := mkGroup a b c d.
Definition gD1 t := gr None None None (Some t).
Definition gnone := gr None None None None.
Ltac all_octets := repeat constructor; unfold is_byte; lia.
Ltac lay := split; [reflexivity|split; [repeat (first [eapply groups_more; [|reflexivity|]|eapply groups_last; [|reflexivity]]; try (vm_compute; repeat split; intros; congruence))|reflexivity]].

(** ** C41 *)
(** C41 is false: one historical byte, the category indicator 00. *)
Theorem C41_no_ub_refuted : exists atr, bytes atr /\ (2 <= length atr <= 33)%nat /\ atr_parse atr = UB.
Proof. exists [0x3B; 1; 0]. split; [all_octets|]. split; [cbn; lia|vm_compute; reflexivity]. Qed.
Print Assumptions C41_no_ub_refuted.
(** C41.  Without TD4 it happens exactly for one to three historical bytes of which
    the first is 00 (after valid interface bytes); with TD4 only if one to three
    historical bytes are indicated.  Otherwise parsing ends normally. *)
Theorem C41_no_ub_partial : forall atr, bytes atr -> (2 <= length atr <= 33)%nat ->
  atr_parse atr <> NoFuel /\ (atr_parse atr = UB -> 1 <= nth 1 atr 0 mod 16 <= 3) /\ (forall e, atr_parse atr = Ret (inl e) -> 0 < e).
Proof.
  intros atr B L. pose proof (atr_safe atr B L) as H. destruct (atr_parse atr) as [[e|x]| |]; try contradiction;
    (split; [discriminate|split; [intro Q; first [discriminate Q|exact H]|intros f Q; first [discriminate Q|injection Q as <-; exact H]]]).
Qed.
Print Assumptions C41_no_ub_partial.
Theorem C41_exactly_partial : forall atr, bytes atr -> (2 <= length atr <= 33)%nat -> ~ td4 atr ->
  (atr_parse atr = UB <-> exists ts t0 gs l rest, layout atr ts t0 gs (0 :: l) [] rest /\ good_ts ts /\ iso_valid gs /\ (length l < 3)%nat).
Proof. exact ub_iff. Qed.
Print Assumptions C41_exactly_partial.
Example C41_ex : atr_parse [0x3B; 0x02; 0x00; 0x55] = UB /\ atr_parse [0x3B; 0x81; 0x01; 0x00] = UB /\ atr_parse [0x3B; 0x80; 0x04; 0x00] = Ret (inl 14).
Proof. vm_compute. auto. Qed.
(** Lengths other than 2 to 33 are refused. *)
Theorem C41_length : forall atr, (length atr < 2 \/ 33 < length atr)%nat -> atr_parse atr = Ret (inl 1).
Proof.
  intros atr H. unfold atr_parse. destruct (Nat.ltb_spec (length atr) 2), (Nat.ltb_spec 33 (length atr)); try reflexivity. lia.
Qed.
Print Assumptions C41_length.

(** ** C42 *)
(** C42 is false: TD4 is taken for the check byte. *)
Theorem C42_check_byte_refuted : exists atr ts t0 gs hist c rest, bytes atr /\ accepted atr /\ layout atr ts t0 gs hist [c] rest /\
  tck_required gs /\ xors (t0 :: flat_map goctets gs ++ hist ++ [c]) <> 0.
Proof.
  exists [0x3B; 0x80; 0x81; 0x81; 0x81; 0x01; 0x77], 0x3B, 0x80, [gD1 0x81; gD1 0x81; gD1 0x81; gD1 0x01; gnone], [], 0x77, [].
  split; [all_octets|]. split; [eexists; vm_compute; reflexivity|]. split; [lay|]. split; [exists (gD1 0x81), 0x81; cbn; repeat split; auto; discriminate|].
  vm_compute. discriminate.
Qed.
Print Assumptions C42_check_byte_refuted.
(** C42 without TD4. *)
Theorem C42_check_byte_partial : forall atr ts t0 gs hist c rest, bytes atr -> (length atr <= 33)%nat -> ~ td4 atr -> accepted atr ->
  layout atr ts t0 gs hist [c] rest -> tck_required gs -> xors (t0 :: flat_map goctets gs ++ hist ++ [c]) = 0.
Proof. exact check_byte. Qed.
Print Assumptions C42_check_byte_partial.
Theorem C42_present_partial : forall atr ts t0 gs hist rest, bytes atr -> (length atr <= 33)%nat -> ~ td4 atr -> accepted atr ->
  layout atr ts t0 gs hist [] rest -> tck_required gs -> rest <> [].
Proof. exact check_byte_present. Qed.
Print Assumptions C42_present_partial.
Example C42_ex : atr_parse [0x3B; 0x80; 0x01; 0x81] <> Ret (inl 8) /\ atr_parse [0x3B; 0x80; 0x01; 0x82] = Ret (inl 8) /\ atr_parse [0x3B; 0x80; 0x01] = Ret (inl 7).
Proof. vm_compute. repeat split; congruence. Qed.

(** ** C43 *)
(** C43 is false: the block waiting time overflows (BWI = 9, Di = 64), and of several
    bytes TBi for T=1 the last and not the first is used. *)
Theorem C43_overflow_refuted : exists atr x ts t0 gs hist tck rest Fi Di, atr_parse atr = Ret (inr x) /\ layout atr ts t0 gs hist tck rest /\
  is_rate gs Fi Di /\ one_T1 gs /\ i_BWT x <> block_waiting_time gs Fi Di.
Proof.
  exists [0x3B; 0x90; 0x17; 0x81; 0x21; 0x95; 0xB2]. eexists. exists 0x3B, 0x90, [gr (Some 0x17) None None (Some 0x81); gD1 0x21; gr None (Some 0x95) None None], [], [0xB2], [], 372, 64.
  split; [vm_compute; reflexivity|]. split; [lay|]. split; [split; [exists 50|]; vm_compute; auto 20|]. split.
  - intros a t1 b t2 c E. vm_compute in E. destruct a as [|? [|? a]]; [|discriminate|discriminate]. injection E as _ E. destruct b; discriminate.
  - vm_compute. discriminate.
Qed.
Print Assumptions C43_overflow_refuted.
Theorem C43_first_refuted : exists atr x ts t0 gs hist tck rest Fi Di, atr_parse atr = Ret (inr x) /\ layout atr ts t0 gs hist tck rest /\
  is_rate gs Fi Di /\ 2 ^ (par_TB gs / 16) * Di <= 12026 /\ i_BWT x <> block_waiting_time gs Fi Di /\ i_CWT x <> char_waiting_time gs.
Proof.
  exists [0x3B; 0x80; 0x81; 0xA1; 0x45; 0x21; 0x37; 0xF3]. eexists.
  exists 0x3B, 0x80, [gD1 0x81; gD1 0xA1; gr None (Some 0x45) None (Some 0x21); gr None (Some 0x37) None None], [], [0xF3], [], 372, 1.
  split; [vm_compute; reflexivity|]. split; [lay|]. split; [split; [exists 50|]; vm_compute; auto 20|]. vm_compute. repeat split; discriminate.
Qed.
Print Assumptions C43_first_refuted.
(** C43, the block and character waiting times only if at most one group is for T=1,
    and the former if it does not overflow; without TD4. *)
Theorem C43_timing_partial : forall atr x, bytes atr -> (length atr <= 33)%nat -> ~ td4 atr -> atr_parse atr = Ret (inr x) ->
  exists ts t0 gs hist tck rest, layout atr ts t0 gs hist tck rest /\ iso_valid gs /\
  exists Fi Di, is_rate gs Fi Di /\ p_Fi (i_params x) = Fi /\ p_Di (i_params x) = Di /\
    i_GT x = guard_time gs /\ i_CGT x = char_guard_time gs /\ i_WT x = waiting_time gs Di /\
    (one_T1 gs -> i_CWT x = char_waiting_time gs /\ p_IFSI (i_params x) = par_IFSI gs /\ p_edc (i_params x) = par_EDC gs /\
      (2 ^ (par_TB gs / 16) * Di <= 12026 -> i_BWT x = block_waiting_time gs Fi Di)).
Proof. exact atr_timing. Qed.
Print Assumptions C43_timing_partial.
Example C43_ex : match atr_parse [0x3B; 0xE0; 0x00; 0xFF; 0x81; 0x31; 0xFE; 0x45; 0x14] with
  | Ret (inr x) => (i_GT x, i_CGT x, i_WT x, i_CWT x, i_BWT x, p_IFSI (i_params x)) | _ => (0, 0, 0, 0, 0, 0) end = (11, 11, 9600, 43, 15371, 254).
Proof. vm_compute. reflexivity. Qed.

(** ** C44 *)
(** C44 is false: with TD4, an ATR is accepted of which the interface bytes are not
    even complete. *)
Theorem C44_emv_refuted : exists atr, bytes atr /\ (length atr <= 33)%nat /\ emv_atr_parse atr = Ret 0 /\
  ~ exists ts t0 gs hist tck rest, layout atr ts t0 gs hist tck rest.
Proof.
  exists [0x3B; 0x80; 0x81; 0xA1; 0x41; 0x81; 0x60]. split; [all_octets|]. split; [cbn; lia|]. split; [vm_compute; reflexivity|].
  exact no_layout.
Qed.
Print Assumptions C44_emv_refuted.
(** C44 without TD4: accepted exactly if well-formed with interface bytes as EMV
    requires. *)
Theorem C44_emv_partial : forall atr, bytes atr -> ~ td4 atr ->
  (emv_atr_parse atr = Ret 0 <-> (length atr <= 33)%nat /\ exists ts t0 gs hist tck rest, layout atr ts t0 gs hist tck rest /\
     good_ts ts /\ iso_valid gs /\ hist_valid ne hist /\ tck_valid t0 gs hist tck /\ emv_rules gs).
Proof. exact emv_iff. Qed.
Print Assumptions C44_emv_partial.
Example C44_ex : emv_atr_parse [0x3B; 0x60; 0x00; 0x00] = Ret 0 /\ emv_atr_parse [0x3B; 0x60; 0x00; 0x01] = Ret CARD_ERROR /\
  emv_atr_parse [0x3B; 0xE0; 0x00; 0xFF; 0x81; 0x31; 0xFE; 0x45; 0x14] = Ret 0 /\ emv_atr_parse [0x3B; 0xE0; 0x00; 0xFF; 0x81; 0x31; 0xFE; 0x55; 0x04] = Ret CARD_ERROR.
Proof. vm_compute. auto. Qed.

(** ** C72 *)
(** C72 is false with TD4. *)
Theorem C72_complete_refuted : exists atr, bytes atr /\ (length atr <= 33)%nat /\ accepted atr /\ ~ exists ts t0 gs hist tck rest, layout atr ts t0 gs hist tck rest.
Proof.
  exists [0x3B; 0x80; 0x81; 0xA1; 0x41; 0x81; 0x60]. split; [all_octets|]. split; [cbn; lia|]. split; [eexists; vm_compute; reflexivity|]. exact no_layout.
Qed.
Print Assumptions C72_complete_refuted.
(** C72 also says that nothing follows, which is false too. *)
Theorem C72_rest_refuted : exists atr, bytes atr /\ (length atr <= 33)%nat /\ ~ td4 atr /\ accepted atr /\
  forall ts t0 gs hist tck rest, layout atr ts t0 gs hist tck rest -> tck_valid t0 gs hist tck -> rest <> [].
Proof. exact rest_refuted. Qed.
Print Assumptions C72_rest_refuted.
(** C72 without TD4, except that more octets may follow. *)
Theorem C72_complete_partial : forall atr, bytes atr -> (length atr <= 33)%nat -> ~ td4 atr -> accepted atr ->
  exists ts t0 gs hist tck rest, layout atr ts t0 gs hist tck rest /\ good_ts ts /\ iso_valid gs /\ hist_valid ne hist /\ tck_valid t0 gs hist tck.
Proof. intros atr B L N. apply atr_iff; auto. Qed.
Print Assumptions C72_complete_partial.

(** ** C73 *)
(** C73 is false: historical bytes without COMPACT-TLV objects are refused. *)
Theorem C73_well_formed_refuted : exists atr ts t0 gs hist tck, bytes atr /\ (length atr <= 33)%nat /\ ~ td4 atr /\ layout atr ts t0 gs hist tck [] /\ good_ts ts /\
  iso_valid gs /\ hist_valid (fun _ => True) hist /\ tck_valid t0 gs hist tck /\ ~ accepted atr.
Proof. exact well_formed_refuted. Qed.
Print Assumptions C73_well_formed_refuted.
(** C73 if there is an object after the category indicator 00 or 80, and at most four
    groups of interface bytes. *)
Theorem C73_well_formed_partial : forall atr ts t0 gs hist tck rest, bytes atr -> (length atr <= 33)%nat -> layout atr ts t0 gs hist tck rest ->
  (length gs <= 4)%nat -> good_ts ts -> iso_valid gs -> hist_valid ne hist -> tck_valid t0 gs hist tck -> accepted atr.
Proof. exact atr_complete. Qed.
Print Assumptions C73_well_formed_partial.
Example C73_ex : accepted [0x3B; 0x66; 0x00; 0x00; 0x80; 0x31; 0xFE; 0x82; 0x90; 0x00].
Proof. eexists. vm_compute. reflexivity. Qed.

(** ** C74 *)
(** C74 is false: TD4 = 00 is taken for the category indicator. *)
Theorem C74_status_refuted : exists atr x ts t0 gs hist tck, bytes atr /\ (length atr <= 33)%nat /\ atr_parse atr = Ret (inr x) /\
  layout atr ts t0 gs hist tck [] /\ tck_valid t0 gs hist tck /\ ~ status_spec hist (i_status x).
Proof.
  exists [0x3B; 0x85; 0x80; 0x80; 0x80; 0x00; 0x10; 0x05; 0x90; 0x00; 0x07]. eexists.
  exists 0x3B, 0x85, [gD1 0x80; gD1 0x80; gD1 0x80; gD1 0x00; gnone], [0x10; 0x05; 0x90; 0x00; 0x07], [].
  split; [all_octets|]. split; [cbn; lia|]. split; [vm_compute; reflexivity|]. split; [lay|]. split.
  - right. split; [|reflexivity]. intros (g & t & I & E & N). cbn [In] in I.
    destruct I as [<-|[<-|[<-|[<-|[<-|[]]]]]]; cbn in E; try discriminate; injection E as <-; apply N; reflexivity.
  - vm_compute. discriminate.
Qed.
Print Assumptions C74_status_refuted.
(** C74 without TD4. *)
Theorem C74_status_partial : forall atr x, bytes atr -> (length atr <= 33)%nat -> ~ td4 atr -> atr_parse atr = Ret (inr x) ->
  exists ts t0 gs hist tck rest, layout atr ts t0 gs hist tck rest /\ status_spec hist (i_status x) /\
    match i_status x with
    | Some [l] => (i_LCS x, i_SW1 x, i_SW2 x) = (l, 0, 0)
    | Some [a; b] => (i_LCS x, i_SW1 x, i_SW2 x) = (0, a, b)
    | Some [l; a; b] => (i_LCS x, i_SW1 x, i_SW2 x) = (l, a, b)
    | _ => (i_LCS x, i_SW1 x, i_SW2 x) = (0, 0, 0)
    end.
Proof.
  intros atr x B L N E. destruct (atr_status atr x B L N E) as (ts & t0 & gs & hist & tck & rest & Ly & S & F).
  exists ts, t0, gs, hist, tck, rest. split; [exact Ly|]. split; [exact S|]. rewrite <- F. destruct (i_status x) as [[|a [|b [|c [|d l]]]]|]; reflexivity.
Qed.
Print Assumptions C74_status_partial.
Example C74_ex : match atr_parse [0x3B; 0x67; 0x00; 0x00; 0x80; 0x31; 0xFE; 0x83; 0x05; 0x90; 0x00] with
  | Ret (inr x) => (i_status x, i_LCS x, i_SW1 x, i_SW2 x) | _ => (None, 0, 0, 0) end = (Some [5; 0x90; 0], 5, 0x90, 0).
Proof. vm_compute. reflexivity. Qed.
