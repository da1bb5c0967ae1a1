(** Proofs about the parsing of answers to reset. *)
From Verif Require Import Base BaseLemmas DolModel DolSpec DolProofs EmvModel AtrModel AtrSpec.

(** ** Records *)
Lemma get_Di_TA1 v0 v1 v2 p : p_Di (set_TA1 v0 v1 v2 p) = v0. Proof. destruct p; reflexivity. Qed.
Lemma get_Fi_TA1 v0 v1 v2 p : p_Fi (set_TA1 v0 v1 v2 p) = v1. Proof. destruct p; reflexivity. Qed.
Lemma get_fmax_TA1 v0 v1 v2 p : p_fmax (set_TA1 v0 v1 v2 p) = v2. Proof. destruct p; reflexivity. Qed.
Lemma get_vpp_connected_TA1 v0 v1 v2 p : p_vpp_connected (set_TA1 v0 v1 v2 p) = p_vpp_connected p. Proof. destruct p; reflexivity. Qed.
Lemma get_vpp_TA1 v0 v1 v2 p : p_vpp (set_TA1 v0 v1 v2 p) = p_vpp p. Proof. destruct p; reflexivity. Qed.
Lemma get_vpp_course_TA1 v0 v1 v2 p : p_vpp_course (set_TA1 v0 v1 v2 p) = p_vpp_course p. Proof. destruct p; reflexivity. Qed.
Lemma get_ipp_TA1 v0 v1 v2 p : p_ipp (set_TA1 v0 v1 v2 p) = p_ipp p. Proof. destruct p; reflexivity. Qed.
Lemma get_N_TA1 v0 v1 v2 p : p_N (set_TA1 v0 v1 v2 p) = p_N p. Proof. destruct p; reflexivity. Qed.
Lemma get_protocol_TA1 v0 v1 v2 p : p_protocol (set_TA1 v0 v1 v2 p) = p_protocol p. Proof. destruct p; reflexivity. Qed.
Lemma get_specific_TA1 v0 v1 v2 p : p_specific (set_TA1 v0 v1 v2 p) = p_specific p. Proof. destruct p; reflexivity. Qed.
Lemma get_specific_protocol_TA1 v0 v1 v2 p : p_specific_protocol (set_TA1 v0 v1 v2 p) = p_specific_protocol p. Proof. destruct p; reflexivity. Qed.
Lemma get_etu_implicit_TA1 v0 v1 v2 p : p_etu_implicit (set_TA1 v0 v1 v2 p) = p_etu_implicit p. Proof. destruct p; reflexivity. Qed.
Lemma get_may_change_TA1 v0 v1 v2 p : p_may_change (set_TA1 v0 v1 v2 p) = p_may_change p. Proof. destruct p; reflexivity. Qed.
Lemma get_classes_TA1 v0 v1 v2 p : p_classes (set_TA1 v0 v1 v2 p) = p_classes p. Proof. destruct p; reflexivity. Qed.
Lemma get_clock_stop_TA1 v0 v1 v2 p : p_clock_stop (set_TA1 v0 v1 v2 p) = p_clock_stop p. Proof. destruct p; reflexivity. Qed.
Lemma get_spu_TA1 v0 v1 v2 p : p_spu (set_TA1 v0 v1 v2 p) = p_spu p. Proof. destruct p; reflexivity. Qed.
Lemma get_WI_TA1 v0 v1 v2 p : p_WI (set_TA1 v0 v1 v2 p) = p_WI p. Proof. destruct p; reflexivity. Qed.
Lemma get_IFSI_TA1 v0 v1 v2 p : p_IFSI (set_TA1 v0 v1 v2 p) = p_IFSI p. Proof. destruct p; reflexivity. Qed.
Lemma get_CWI_TA1 v0 v1 v2 p : p_CWI (set_TA1 v0 v1 v2 p) = p_CWI p. Proof. destruct p; reflexivity. Qed.
Lemma get_BWI_TA1 v0 v1 v2 p : p_BWI (set_TA1 v0 v1 v2 p) = p_BWI p. Proof. destruct p; reflexivity. Qed.
Lemma get_edc_TA1 v0 v1 v2 p : p_edc (set_TA1 v0 v1 v2 p) = p_edc p. Proof. destruct p; reflexivity. Qed.
Lemma get_Di_vpp v0 v1 v2 v3 p : p_Di (set_vpp v0 v1 v2 v3 p) = p_Di p. Proof. destruct p; reflexivity. Qed.
Lemma get_Fi_vpp v0 v1 v2 v3 p : p_Fi (set_vpp v0 v1 v2 v3 p) = p_Fi p. Proof. destruct p; reflexivity. Qed.
Lemma get_fmax_vpp v0 v1 v2 v3 p : p_fmax (set_vpp v0 v1 v2 v3 p) = p_fmax p. Proof. destruct p; reflexivity. Qed.
Lemma get_vpp_connected_vpp v0 v1 v2 v3 p : p_vpp_connected (set_vpp v0 v1 v2 v3 p) = v0. Proof. destruct p; reflexivity. Qed.
Lemma get_vpp_vpp v0 v1 v2 v3 p : p_vpp (set_vpp v0 v1 v2 v3 p) = v1. Proof. destruct p; reflexivity. Qed.
Lemma get_vpp_course_vpp v0 v1 v2 v3 p : p_vpp_course (set_vpp v0 v1 v2 v3 p) = v2. Proof. destruct p; reflexivity. Qed.
Lemma get_ipp_vpp v0 v1 v2 v3 p : p_ipp (set_vpp v0 v1 v2 v3 p) = v3. Proof. destruct p; reflexivity. Qed.
Lemma get_N_vpp v0 v1 v2 v3 p : p_N (set_vpp v0 v1 v2 v3 p) = p_N p. Proof. destruct p; reflexivity. Qed.
Lemma get_protocol_vpp v0 v1 v2 v3 p : p_protocol (set_vpp v0 v1 v2 v3 p) = p_protocol p. Proof. destruct p; reflexivity. Qed.
Lemma get_specific_vpp v0 v1 v2 v3 p : p_specific (set_vpp v0 v1 v2 v3 p) = p_specific p. Proof. destruct p; reflexivity. Qed.
Lemma get_specific_protocol_vpp v0 v1 v2 v3 p : p_specific_protocol (set_vpp v0 v1 v2 v3 p) = p_specific_protocol p. Proof. destruct p; reflexivity. Qed.
Lemma get_etu_implicit_vpp v0 v1 v2 v3 p : p_etu_implicit (set_vpp v0 v1 v2 v3 p) = p_etu_implicit p. Proof. destruct p; reflexivity. Qed.
Lemma get_may_change_vpp v0 v1 v2 v3 p : p_may_change (set_vpp v0 v1 v2 v3 p) = p_may_change p. Proof. destruct p; reflexivity. Qed.
Lemma get_classes_vpp v0 v1 v2 v3 p : p_classes (set_vpp v0 v1 v2 v3 p) = p_classes p. Proof. destruct p; reflexivity. Qed.
Lemma get_clock_stop_vpp v0 v1 v2 v3 p : p_clock_stop (set_vpp v0 v1 v2 v3 p) = p_clock_stop p. Proof. destruct p; reflexivity. Qed.
Lemma get_spu_vpp v0 v1 v2 v3 p : p_spu (set_vpp v0 v1 v2 v3 p) = p_spu p. Proof. destruct p; reflexivity. Qed.
Lemma get_WI_vpp v0 v1 v2 v3 p : p_WI (set_vpp v0 v1 v2 v3 p) = p_WI p. Proof. destruct p; reflexivity. Qed.
Lemma get_IFSI_vpp v0 v1 v2 v3 p : p_IFSI (set_vpp v0 v1 v2 v3 p) = p_IFSI p. Proof. destruct p; reflexivity. Qed.
Lemma get_CWI_vpp v0 v1 v2 v3 p : p_CWI (set_vpp v0 v1 v2 v3 p) = p_CWI p. Proof. destruct p; reflexivity. Qed.
Lemma get_BWI_vpp v0 v1 v2 v3 p : p_BWI (set_vpp v0 v1 v2 v3 p) = p_BWI p. Proof. destruct p; reflexivity. Qed.
Lemma get_edc_vpp v0 v1 v2 v3 p : p_edc (set_vpp v0 v1 v2 v3 p) = p_edc p. Proof. destruct p; reflexivity. Qed.
Lemma get_Di_N v0 p : p_Di (set_N v0 p) = p_Di p. Proof. destruct p; reflexivity. Qed.
Lemma get_Fi_N v0 p : p_Fi (set_N v0 p) = p_Fi p. Proof. destruct p; reflexivity. Qed.
Lemma get_fmax_N v0 p : p_fmax (set_N v0 p) = p_fmax p. Proof. destruct p; reflexivity. Qed.
Lemma get_vpp_connected_N v0 p : p_vpp_connected (set_N v0 p) = p_vpp_connected p. Proof. destruct p; reflexivity. Qed.
Lemma get_vpp_N v0 p : p_vpp (set_N v0 p) = p_vpp p. Proof. destruct p; reflexivity. Qed.
Lemma get_vpp_course_N v0 p : p_vpp_course (set_N v0 p) = p_vpp_course p. Proof. destruct p; reflexivity. Qed.
Lemma get_ipp_N v0 p : p_ipp (set_N v0 p) = p_ipp p. Proof. destruct p; reflexivity. Qed.
Lemma get_N_N v0 p : p_N (set_N v0 p) = v0. Proof. destruct p; reflexivity. Qed.
Lemma get_protocol_N v0 p : p_protocol (set_N v0 p) = p_protocol p. Proof. destruct p; reflexivity. Qed.
Lemma get_specific_N v0 p : p_specific (set_N v0 p) = p_specific p. Proof. destruct p; reflexivity. Qed.
Lemma get_specific_protocol_N v0 p : p_specific_protocol (set_N v0 p) = p_specific_protocol p. Proof. destruct p; reflexivity. Qed.
Lemma get_etu_implicit_N v0 p : p_etu_implicit (set_N v0 p) = p_etu_implicit p. Proof. destruct p; reflexivity. Qed.
Lemma get_may_change_N v0 p : p_may_change (set_N v0 p) = p_may_change p. Proof. destruct p; reflexivity. Qed.
Lemma get_classes_N v0 p : p_classes (set_N v0 p) = p_classes p. Proof. destruct p; reflexivity. Qed.
Lemma get_clock_stop_N v0 p : p_clock_stop (set_N v0 p) = p_clock_stop p. Proof. destruct p; reflexivity. Qed.
Lemma get_spu_N v0 p : p_spu (set_N v0 p) = p_spu p. Proof. destruct p; reflexivity. Qed.
Lemma get_WI_N v0 p : p_WI (set_N v0 p) = p_WI p. Proof. destruct p; reflexivity. Qed.
Lemma get_IFSI_N v0 p : p_IFSI (set_N v0 p) = p_IFSI p. Proof. destruct p; reflexivity. Qed.
Lemma get_CWI_N v0 p : p_CWI (set_N v0 p) = p_CWI p. Proof. destruct p; reflexivity. Qed.
Lemma get_BWI_N v0 p : p_BWI (set_N v0 p) = p_BWI p. Proof. destruct p; reflexivity. Qed.
Lemma get_edc_N v0 p : p_edc (set_N v0 p) = p_edc p. Proof. destruct p; reflexivity. Qed.
Lemma get_Di_protocol v0 p : p_Di (set_protocol v0 p) = p_Di p. Proof. destruct p; reflexivity. Qed.
Lemma get_Fi_protocol v0 p : p_Fi (set_protocol v0 p) = p_Fi p. Proof. destruct p; reflexivity. Qed.
Lemma get_fmax_protocol v0 p : p_fmax (set_protocol v0 p) = p_fmax p. Proof. destruct p; reflexivity. Qed.
Lemma get_vpp_connected_protocol v0 p : p_vpp_connected (set_protocol v0 p) = p_vpp_connected p. Proof. destruct p; reflexivity. Qed.
Lemma get_vpp_protocol v0 p : p_vpp (set_protocol v0 p) = p_vpp p. Proof. destruct p; reflexivity. Qed.
Lemma get_vpp_course_protocol v0 p : p_vpp_course (set_protocol v0 p) = p_vpp_course p. Proof. destruct p; reflexivity. Qed.
Lemma get_ipp_protocol v0 p : p_ipp (set_protocol v0 p) = p_ipp p. Proof. destruct p; reflexivity. Qed.
Lemma get_N_protocol v0 p : p_N (set_protocol v0 p) = p_N p. Proof. destruct p; reflexivity. Qed.
Lemma get_protocol_protocol v0 p : p_protocol (set_protocol v0 p) = v0. Proof. destruct p; reflexivity. Qed.
Lemma get_specific_protocol v0 p : p_specific (set_protocol v0 p) = p_specific p. Proof. destruct p; reflexivity. Qed.
Lemma get_specific_protocol_protocol v0 p : p_specific_protocol (set_protocol v0 p) = p_specific_protocol p. Proof. destruct p; reflexivity. Qed.
Lemma get_etu_implicit_protocol v0 p : p_etu_implicit (set_protocol v0 p) = p_etu_implicit p. Proof. destruct p; reflexivity. Qed.
Lemma get_may_change_protocol v0 p : p_may_change (set_protocol v0 p) = p_may_change p. Proof. destruct p; reflexivity. Qed.
Lemma get_classes_protocol v0 p : p_classes (set_protocol v0 p) = p_classes p. Proof. destruct p; reflexivity. Qed.
Lemma get_clock_stop_protocol v0 p : p_clock_stop (set_protocol v0 p) = p_clock_stop p. Proof. destruct p; reflexivity. Qed.
Lemma get_spu_protocol v0 p : p_spu (set_protocol v0 p) = p_spu p. Proof. destruct p; reflexivity. Qed.
Lemma get_WI_protocol v0 p : p_WI (set_protocol v0 p) = p_WI p. Proof. destruct p; reflexivity. Qed.
Lemma get_IFSI_protocol v0 p : p_IFSI (set_protocol v0 p) = p_IFSI p. Proof. destruct p; reflexivity. Qed.
Lemma get_CWI_protocol v0 p : p_CWI (set_protocol v0 p) = p_CWI p. Proof. destruct p; reflexivity. Qed.
Lemma get_BWI_protocol v0 p : p_BWI (set_protocol v0 p) = p_BWI p. Proof. destruct p; reflexivity. Qed.
Lemma get_edc_protocol v0 p : p_edc (set_protocol v0 p) = p_edc p. Proof. destruct p; reflexivity. Qed.
Lemma get_Di_TA2 v0 v1 v2 v3 p : p_Di (set_TA2 v0 v1 v2 v3 p) = p_Di p. Proof. destruct p; reflexivity. Qed.
Lemma get_Fi_TA2 v0 v1 v2 v3 p : p_Fi (set_TA2 v0 v1 v2 v3 p) = p_Fi p. Proof. destruct p; reflexivity. Qed.
Lemma get_fmax_TA2 v0 v1 v2 v3 p : p_fmax (set_TA2 v0 v1 v2 v3 p) = p_fmax p. Proof. destruct p; reflexivity. Qed.
Lemma get_vpp_connected_TA2 v0 v1 v2 v3 p : p_vpp_connected (set_TA2 v0 v1 v2 v3 p) = p_vpp_connected p. Proof. destruct p; reflexivity. Qed.
Lemma get_vpp_TA2 v0 v1 v2 v3 p : p_vpp (set_TA2 v0 v1 v2 v3 p) = p_vpp p. Proof. destruct p; reflexivity. Qed.
Lemma get_vpp_course_TA2 v0 v1 v2 v3 p : p_vpp_course (set_TA2 v0 v1 v2 v3 p) = p_vpp_course p. Proof. destruct p; reflexivity. Qed.
Lemma get_ipp_TA2 v0 v1 v2 v3 p : p_ipp (set_TA2 v0 v1 v2 v3 p) = p_ipp p. Proof. destruct p; reflexivity. Qed.
Lemma get_N_TA2 v0 v1 v2 v3 p : p_N (set_TA2 v0 v1 v2 v3 p) = p_N p. Proof. destruct p; reflexivity. Qed.
Lemma get_protocol_TA2 v0 v1 v2 v3 p : p_protocol (set_TA2 v0 v1 v2 v3 p) = p_protocol p. Proof. destruct p; reflexivity. Qed.
Lemma get_specific_TA2 v0 v1 v2 v3 p : p_specific (set_TA2 v0 v1 v2 v3 p) = v0. Proof. destruct p; reflexivity. Qed.
Lemma get_specific_protocol_TA2 v0 v1 v2 v3 p : p_specific_protocol (set_TA2 v0 v1 v2 v3 p) = v1. Proof. destruct p; reflexivity. Qed.
Lemma get_etu_implicit_TA2 v0 v1 v2 v3 p : p_etu_implicit (set_TA2 v0 v1 v2 v3 p) = v2. Proof. destruct p; reflexivity. Qed.
Lemma get_may_change_TA2 v0 v1 v2 v3 p : p_may_change (set_TA2 v0 v1 v2 v3 p) = v3. Proof. destruct p; reflexivity. Qed.
Lemma get_classes_TA2 v0 v1 v2 v3 p : p_classes (set_TA2 v0 v1 v2 v3 p) = p_classes p. Proof. destruct p; reflexivity. Qed.
Lemma get_clock_stop_TA2 v0 v1 v2 v3 p : p_clock_stop (set_TA2 v0 v1 v2 v3 p) = p_clock_stop p. Proof. destruct p; reflexivity. Qed.
Lemma get_spu_TA2 v0 v1 v2 v3 p : p_spu (set_TA2 v0 v1 v2 v3 p) = p_spu p. Proof. destruct p; reflexivity. Qed.
Lemma get_WI_TA2 v0 v1 v2 v3 p : p_WI (set_TA2 v0 v1 v2 v3 p) = p_WI p. Proof. destruct p; reflexivity. Qed.
Lemma get_IFSI_TA2 v0 v1 v2 v3 p : p_IFSI (set_TA2 v0 v1 v2 v3 p) = p_IFSI p. Proof. destruct p; reflexivity. Qed.
Lemma get_CWI_TA2 v0 v1 v2 v3 p : p_CWI (set_TA2 v0 v1 v2 v3 p) = p_CWI p. Proof. destruct p; reflexivity. Qed.
Lemma get_BWI_TA2 v0 v1 v2 v3 p : p_BWI (set_TA2 v0 v1 v2 v3 p) = p_BWI p. Proof. destruct p; reflexivity. Qed.
Lemma get_edc_TA2 v0 v1 v2 v3 p : p_edc (set_TA2 v0 v1 v2 v3 p) = p_edc p. Proof. destruct p; reflexivity. Qed.
Lemma get_Di_class v0 v1 p : p_Di (set_class v0 v1 p) = p_Di p. Proof. destruct p; reflexivity. Qed.
Lemma get_Fi_class v0 v1 p : p_Fi (set_class v0 v1 p) = p_Fi p. Proof. destruct p; reflexivity. Qed.
Lemma get_fmax_class v0 v1 p : p_fmax (set_class v0 v1 p) = p_fmax p. Proof. destruct p; reflexivity. Qed.
Lemma get_vpp_connected_class v0 v1 p : p_vpp_connected (set_class v0 v1 p) = p_vpp_connected p. Proof. destruct p; reflexivity. Qed.
Lemma get_vpp_class v0 v1 p : p_vpp (set_class v0 v1 p) = p_vpp p. Proof. destruct p; reflexivity. Qed.
Lemma get_vpp_course_class v0 v1 p : p_vpp_course (set_class v0 v1 p) = p_vpp_course p. Proof. destruct p; reflexivity. Qed.
Lemma get_ipp_class v0 v1 p : p_ipp (set_class v0 v1 p) = p_ipp p. Proof. destruct p; reflexivity. Qed.
Lemma get_N_class v0 v1 p : p_N (set_class v0 v1 p) = p_N p. Proof. destruct p; reflexivity. Qed.
Lemma get_protocol_class v0 v1 p : p_protocol (set_class v0 v1 p) = p_protocol p. Proof. destruct p; reflexivity. Qed.
Lemma get_specific_class v0 v1 p : p_specific (set_class v0 v1 p) = p_specific p. Proof. destruct p; reflexivity. Qed.
Lemma get_specific_protocol_class v0 v1 p : p_specific_protocol (set_class v0 v1 p) = p_specific_protocol p. Proof. destruct p; reflexivity. Qed.
Lemma get_etu_implicit_class v0 v1 p : p_etu_implicit (set_class v0 v1 p) = p_etu_implicit p. Proof. destruct p; reflexivity. Qed.
Lemma get_may_change_class v0 v1 p : p_may_change (set_class v0 v1 p) = p_may_change p. Proof. destruct p; reflexivity. Qed.
Lemma get_classes_class v0 v1 p : p_classes (set_class v0 v1 p) = v0. Proof. destruct p; reflexivity. Qed.
Lemma get_clock_stop_class v0 v1 p : p_clock_stop (set_class v0 v1 p) = v1. Proof. destruct p; reflexivity. Qed.
Lemma get_spu_class v0 v1 p : p_spu (set_class v0 v1 p) = p_spu p. Proof. destruct p; reflexivity. Qed.
Lemma get_WI_class v0 v1 p : p_WI (set_class v0 v1 p) = p_WI p. Proof. destruct p; reflexivity. Qed.
Lemma get_IFSI_class v0 v1 p : p_IFSI (set_class v0 v1 p) = p_IFSI p. Proof. destruct p; reflexivity. Qed.
Lemma get_CWI_class v0 v1 p : p_CWI (set_class v0 v1 p) = p_CWI p. Proof. destruct p; reflexivity. Qed.
Lemma get_BWI_class v0 v1 p : p_BWI (set_class v0 v1 p) = p_BWI p. Proof. destruct p; reflexivity. Qed.
Lemma get_edc_class v0 v1 p : p_edc (set_class v0 v1 p) = p_edc p. Proof. destruct p; reflexivity. Qed.
Lemma get_Di_spu v0 p : p_Di (set_spu v0 p) = p_Di p. Proof. destruct p; reflexivity. Qed.
Lemma get_Fi_spu v0 p : p_Fi (set_spu v0 p) = p_Fi p. Proof. destruct p; reflexivity. Qed.
Lemma get_fmax_spu v0 p : p_fmax (set_spu v0 p) = p_fmax p. Proof. destruct p; reflexivity. Qed.
Lemma get_vpp_connected_spu v0 p : p_vpp_connected (set_spu v0 p) = p_vpp_connected p. Proof. destruct p; reflexivity. Qed.
Lemma get_vpp_spu v0 p : p_vpp (set_spu v0 p) = p_vpp p. Proof. destruct p; reflexivity. Qed.
Lemma get_vpp_course_spu v0 p : p_vpp_course (set_spu v0 p) = p_vpp_course p. Proof. destruct p; reflexivity. Qed.
Lemma get_ipp_spu v0 p : p_ipp (set_spu v0 p) = p_ipp p. Proof. destruct p; reflexivity. Qed.
Lemma get_N_spu v0 p : p_N (set_spu v0 p) = p_N p. Proof. destruct p; reflexivity. Qed.
Lemma get_protocol_spu v0 p : p_protocol (set_spu v0 p) = p_protocol p. Proof. destruct p; reflexivity. Qed.
Lemma get_specific_spu v0 p : p_specific (set_spu v0 p) = p_specific p. Proof. destruct p; reflexivity. Qed.
Lemma get_specific_protocol_spu v0 p : p_specific_protocol (set_spu v0 p) = p_specific_protocol p. Proof. destruct p; reflexivity. Qed.
Lemma get_etu_implicit_spu v0 p : p_etu_implicit (set_spu v0 p) = p_etu_implicit p. Proof. destruct p; reflexivity. Qed.
Lemma get_may_change_spu v0 p : p_may_change (set_spu v0 p) = p_may_change p. Proof. destruct p; reflexivity. Qed.
Lemma get_classes_spu v0 p : p_classes (set_spu v0 p) = p_classes p. Proof. destruct p; reflexivity. Qed.
Lemma get_clock_stop_spu v0 p : p_clock_stop (set_spu v0 p) = p_clock_stop p. Proof. destruct p; reflexivity. Qed.
Lemma get_spu_spu v0 p : p_spu (set_spu v0 p) = v0. Proof. destruct p; reflexivity. Qed.
Lemma get_WI_spu v0 p : p_WI (set_spu v0 p) = p_WI p. Proof. destruct p; reflexivity. Qed.
Lemma get_IFSI_spu v0 p : p_IFSI (set_spu v0 p) = p_IFSI p. Proof. destruct p; reflexivity. Qed.
Lemma get_CWI_spu v0 p : p_CWI (set_spu v0 p) = p_CWI p. Proof. destruct p; reflexivity. Qed.
Lemma get_BWI_spu v0 p : p_BWI (set_spu v0 p) = p_BWI p. Proof. destruct p; reflexivity. Qed.
Lemma get_edc_spu v0 p : p_edc (set_spu v0 p) = p_edc p. Proof. destruct p; reflexivity. Qed.
Lemma get_Di_WI v0 p : p_Di (set_WI v0 p) = p_Di p. Proof. destruct p; reflexivity. Qed.
Lemma get_Fi_WI v0 p : p_Fi (set_WI v0 p) = p_Fi p. Proof. destruct p; reflexivity. Qed.
Lemma get_fmax_WI v0 p : p_fmax (set_WI v0 p) = p_fmax p. Proof. destruct p; reflexivity. Qed.
Lemma get_vpp_connected_WI v0 p : p_vpp_connected (set_WI v0 p) = p_vpp_connected p. Proof. destruct p; reflexivity. Qed.
Lemma get_vpp_WI v0 p : p_vpp (set_WI v0 p) = p_vpp p. Proof. destruct p; reflexivity. Qed.
Lemma get_vpp_course_WI v0 p : p_vpp_course (set_WI v0 p) = p_vpp_course p. Proof. destruct p; reflexivity. Qed.
Lemma get_ipp_WI v0 p : p_ipp (set_WI v0 p) = p_ipp p. Proof. destruct p; reflexivity. Qed.
Lemma get_N_WI v0 p : p_N (set_WI v0 p) = p_N p. Proof. destruct p; reflexivity. Qed.
Lemma get_protocol_WI v0 p : p_protocol (set_WI v0 p) = p_protocol p. Proof. destruct p; reflexivity. Qed.
Lemma get_specific_WI v0 p : p_specific (set_WI v0 p) = p_specific p. Proof. destruct p; reflexivity. Qed.
Lemma get_specific_protocol_WI v0 p : p_specific_protocol (set_WI v0 p) = p_specific_protocol p. Proof. destruct p; reflexivity. Qed.
Lemma get_etu_implicit_WI v0 p : p_etu_implicit (set_WI v0 p) = p_etu_implicit p. Proof. destruct p; reflexivity. Qed.
Lemma get_may_change_WI v0 p : p_may_change (set_WI v0 p) = p_may_change p. Proof. destruct p; reflexivity. Qed.
Lemma get_classes_WI v0 p : p_classes (set_WI v0 p) = p_classes p. Proof. destruct p; reflexivity. Qed.
Lemma get_clock_stop_WI v0 p : p_clock_stop (set_WI v0 p) = p_clock_stop p. Proof. destruct p; reflexivity. Qed.
Lemma get_spu_WI v0 p : p_spu (set_WI v0 p) = p_spu p. Proof. destruct p; reflexivity. Qed.
Lemma get_WI_WI v0 p : p_WI (set_WI v0 p) = v0. Proof. destruct p; reflexivity. Qed.
Lemma get_IFSI_WI v0 p : p_IFSI (set_WI v0 p) = p_IFSI p. Proof. destruct p; reflexivity. Qed.
Lemma get_CWI_WI v0 p : p_CWI (set_WI v0 p) = p_CWI p. Proof. destruct p; reflexivity. Qed.
Lemma get_BWI_WI v0 p : p_BWI (set_WI v0 p) = p_BWI p. Proof. destruct p; reflexivity. Qed.
Lemma get_edc_WI v0 p : p_edc (set_WI v0 p) = p_edc p. Proof. destruct p; reflexivity. Qed.
Lemma get_Di_IFSI v0 p : p_Di (set_IFSI v0 p) = p_Di p. Proof. destruct p; reflexivity. Qed.
Lemma get_Fi_IFSI v0 p : p_Fi (set_IFSI v0 p) = p_Fi p. Proof. destruct p; reflexivity. Qed.
Lemma get_fmax_IFSI v0 p : p_fmax (set_IFSI v0 p) = p_fmax p. Proof. destruct p; reflexivity. Qed.
Lemma get_vpp_connected_IFSI v0 p : p_vpp_connected (set_IFSI v0 p) = p_vpp_connected p. Proof. destruct p; reflexivity. Qed.
Lemma get_vpp_IFSI v0 p : p_vpp (set_IFSI v0 p) = p_vpp p. Proof. destruct p; reflexivity. Qed.
Lemma get_vpp_course_IFSI v0 p : p_vpp_course (set_IFSI v0 p) = p_vpp_course p. Proof. destruct p; reflexivity. Qed.
Lemma get_ipp_IFSI v0 p : p_ipp (set_IFSI v0 p) = p_ipp p. Proof. destruct p; reflexivity. Qed.
Lemma get_N_IFSI v0 p : p_N (set_IFSI v0 p) = p_N p. Proof. destruct p; reflexivity. Qed.
Lemma get_protocol_IFSI v0 p : p_protocol (set_IFSI v0 p) = p_protocol p. Proof. destruct p; reflexivity. Qed.
Lemma get_specific_IFSI v0 p : p_specific (set_IFSI v0 p) = p_specific p. Proof. destruct p; reflexivity. Qed.
Lemma get_specific_protocol_IFSI v0 p : p_specific_protocol (set_IFSI v0 p) = p_specific_protocol p. Proof. destruct p; reflexivity. Qed.
Lemma get_etu_implicit_IFSI v0 p : p_etu_implicit (set_IFSI v0 p) = p_etu_implicit p. Proof. destruct p; reflexivity. Qed.
Lemma get_may_change_IFSI v0 p : p_may_change (set_IFSI v0 p) = p_may_change p. Proof. destruct p; reflexivity. Qed.
Lemma get_classes_IFSI v0 p : p_classes (set_IFSI v0 p) = p_classes p. Proof. destruct p; reflexivity. Qed.
Lemma get_clock_stop_IFSI v0 p : p_clock_stop (set_IFSI v0 p) = p_clock_stop p. Proof. destruct p; reflexivity. Qed.
Lemma get_spu_IFSI v0 p : p_spu (set_IFSI v0 p) = p_spu p. Proof. destruct p; reflexivity. Qed.
Lemma get_WI_IFSI v0 p : p_WI (set_IFSI v0 p) = p_WI p. Proof. destruct p; reflexivity. Qed.
Lemma get_IFSI_IFSI v0 p : p_IFSI (set_IFSI v0 p) = v0. Proof. destruct p; reflexivity. Qed.
Lemma get_CWI_IFSI v0 p : p_CWI (set_IFSI v0 p) = p_CWI p. Proof. destruct p; reflexivity. Qed.
Lemma get_BWI_IFSI v0 p : p_BWI (set_IFSI v0 p) = p_BWI p. Proof. destruct p; reflexivity. Qed.
Lemma get_edc_IFSI v0 p : p_edc (set_IFSI v0 p) = p_edc p. Proof. destruct p; reflexivity. Qed.
Lemma get_Di_CB v0 v1 p : p_Di (set_CB v0 v1 p) = p_Di p. Proof. destruct p; reflexivity. Qed.
Lemma get_Fi_CB v0 v1 p : p_Fi (set_CB v0 v1 p) = p_Fi p. Proof. destruct p; reflexivity. Qed.
Lemma get_fmax_CB v0 v1 p : p_fmax (set_CB v0 v1 p) = p_fmax p. Proof. destruct p; reflexivity. Qed.
Lemma get_vpp_connected_CB v0 v1 p : p_vpp_connected (set_CB v0 v1 p) = p_vpp_connected p. Proof. destruct p; reflexivity. Qed.
Lemma get_vpp_CB v0 v1 p : p_vpp (set_CB v0 v1 p) = p_vpp p. Proof. destruct p; reflexivity. Qed.
Lemma get_vpp_course_CB v0 v1 p : p_vpp_course (set_CB v0 v1 p) = p_vpp_course p. Proof. destruct p; reflexivity. Qed.
Lemma get_ipp_CB v0 v1 p : p_ipp (set_CB v0 v1 p) = p_ipp p. Proof. destruct p; reflexivity. Qed.
Lemma get_N_CB v0 v1 p : p_N (set_CB v0 v1 p) = p_N p. Proof. destruct p; reflexivity. Qed.
Lemma get_protocol_CB v0 v1 p : p_protocol (set_CB v0 v1 p) = p_protocol p. Proof. destruct p; reflexivity. Qed.
Lemma get_specific_CB v0 v1 p : p_specific (set_CB v0 v1 p) = p_specific p. Proof. destruct p; reflexivity. Qed.
Lemma get_specific_protocol_CB v0 v1 p : p_specific_protocol (set_CB v0 v1 p) = p_specific_protocol p. Proof. destruct p; reflexivity. Qed.
Lemma get_etu_implicit_CB v0 v1 p : p_etu_implicit (set_CB v0 v1 p) = p_etu_implicit p. Proof. destruct p; reflexivity. Qed.
Lemma get_may_change_CB v0 v1 p : p_may_change (set_CB v0 v1 p) = p_may_change p. Proof. destruct p; reflexivity. Qed.
Lemma get_classes_CB v0 v1 p : p_classes (set_CB v0 v1 p) = p_classes p. Proof. destruct p; reflexivity. Qed.
Lemma get_clock_stop_CB v0 v1 p : p_clock_stop (set_CB v0 v1 p) = p_clock_stop p. Proof. destruct p; reflexivity. Qed.
Lemma get_spu_CB v0 v1 p : p_spu (set_CB v0 v1 p) = p_spu p. Proof. destruct p; reflexivity. Qed.
Lemma get_WI_CB v0 v1 p : p_WI (set_CB v0 v1 p) = p_WI p. Proof. destruct p; reflexivity. Qed.
Lemma get_IFSI_CB v0 v1 p : p_IFSI (set_CB v0 v1 p) = p_IFSI p. Proof. destruct p; reflexivity. Qed.
Lemma get_CWI_CB v0 v1 p : p_CWI (set_CB v0 v1 p) = v0. Proof. destruct p; reflexivity. Qed.
Lemma get_BWI_CB v0 v1 p : p_BWI (set_CB v0 v1 p) = v1. Proof. destruct p; reflexivity. Qed.
Lemma get_edc_CB v0 v1 p : p_edc (set_CB v0 v1 p) = p_edc p. Proof. destruct p; reflexivity. Qed.
Lemma get_Di_edc v0 p : p_Di (set_edc v0 p) = p_Di p. Proof. destruct p; reflexivity. Qed.
Lemma get_Fi_edc v0 p : p_Fi (set_edc v0 p) = p_Fi p. Proof. destruct p; reflexivity. Qed.
Lemma get_fmax_edc v0 p : p_fmax (set_edc v0 p) = p_fmax p. Proof. destruct p; reflexivity. Qed.
Lemma get_vpp_connected_edc v0 p : p_vpp_connected (set_edc v0 p) = p_vpp_connected p. Proof. destruct p; reflexivity. Qed.
Lemma get_vpp_edc v0 p : p_vpp (set_edc v0 p) = p_vpp p. Proof. destruct p; reflexivity. Qed.
Lemma get_vpp_course_edc v0 p : p_vpp_course (set_edc v0 p) = p_vpp_course p. Proof. destruct p; reflexivity. Qed.
Lemma get_ipp_edc v0 p : p_ipp (set_edc v0 p) = p_ipp p. Proof. destruct p; reflexivity. Qed.
Lemma get_N_edc v0 p : p_N (set_edc v0 p) = p_N p. Proof. destruct p; reflexivity. Qed.
Lemma get_protocol_edc v0 p : p_protocol (set_edc v0 p) = p_protocol p. Proof. destruct p; reflexivity. Qed.
Lemma get_specific_edc v0 p : p_specific (set_edc v0 p) = p_specific p. Proof. destruct p; reflexivity. Qed.
Lemma get_specific_protocol_edc v0 p : p_specific_protocol (set_edc v0 p) = p_specific_protocol p. Proof. destruct p; reflexivity. Qed.
Lemma get_etu_implicit_edc v0 p : p_etu_implicit (set_edc v0 p) = p_etu_implicit p. Proof. destruct p; reflexivity. Qed.
Lemma get_may_change_edc v0 p : p_may_change (set_edc v0 p) = p_may_change p. Proof. destruct p; reflexivity. Qed.
Lemma get_classes_edc v0 p : p_classes (set_edc v0 p) = p_classes p. Proof. destruct p; reflexivity. Qed.
Lemma get_clock_stop_edc v0 p : p_clock_stop (set_edc v0 p) = p_clock_stop p. Proof. destruct p; reflexivity. Qed.
Lemma get_spu_edc v0 p : p_spu (set_edc v0 p) = p_spu p. Proof. destruct p; reflexivity. Qed.
Lemma get_WI_edc v0 p : p_WI (set_edc v0 p) = p_WI p. Proof. destruct p; reflexivity. Qed.
Lemma get_IFSI_edc v0 p : p_IFSI (set_edc v0 p) = p_IFSI p. Proof. destruct p; reflexivity. Qed.
Lemma get_CWI_edc v0 p : p_CWI (set_edc v0 p) = p_CWI p. Proof. destruct p; reflexivity. Qed.
Lemma get_BWI_edc v0 p : p_BWI (set_edc v0 p) = p_BWI p. Proof. destruct p; reflexivity. Qed.
Lemma get_edc_edc v0 p : p_edc (set_edc v0 p) = v0. Proof. destruct p; reflexivity. Qed.
Global Hint Rewrite get_Di_TA1 get_Fi_TA1 get_fmax_TA1 get_vpp_connected_TA1 get_vpp_TA1 get_vpp_course_TA1 get_ipp_TA1 get_N_TA1 get_protocol_TA1 get_specific_TA1 get_specific_protocol_TA1 get_etu_implicit_TA1 get_may_change_TA1 get_classes_TA1 get_clock_stop_TA1 get_spu_TA1 get_WI_TA1 get_IFSI_TA1 get_CWI_TA1 get_BWI_TA1 get_edc_TA1 get_Di_vpp get_Fi_vpp get_fmax_vpp get_vpp_connected_vpp get_vpp_vpp get_vpp_course_vpp get_ipp_vpp get_N_vpp get_protocol_vpp get_specific_vpp get_specific_protocol_vpp get_etu_implicit_vpp get_may_change_vpp get_classes_vpp get_clock_stop_vpp get_spu_vpp get_WI_vpp get_IFSI_vpp get_CWI_vpp get_BWI_vpp get_edc_vpp get_Di_N get_Fi_N get_fmax_N get_vpp_connected_N get_vpp_N get_vpp_course_N get_ipp_N get_N_N get_protocol_N get_specific_N get_specific_protocol_N get_etu_implicit_N get_may_change_N get_classes_N get_clock_stop_N get_spu_N get_WI_N get_IFSI_N get_CWI_N get_BWI_N get_edc_N get_Di_protocol get_Fi_protocol get_fmax_protocol get_vpp_connected_protocol get_vpp_protocol get_vpp_course_protocol get_ipp_protocol get_N_protocol get_protocol_protocol get_specific_protocol get_specific_protocol_protocol get_etu_implicit_protocol get_may_change_protocol get_classes_protocol get_clock_stop_protocol get_spu_protocol get_WI_protocol get_IFSI_protocol get_CWI_protocol get_BWI_protocol get_edc_protocol get_Di_TA2 get_Fi_TA2 get_fmax_TA2 get_vpp_connected_TA2 get_vpp_TA2 get_vpp_course_TA2 get_ipp_TA2 get_N_TA2 get_protocol_TA2 get_specific_TA2 get_specific_protocol_TA2 get_etu_implicit_TA2 get_may_change_TA2 get_classes_TA2 get_clock_stop_TA2 get_spu_TA2 get_WI_TA2 get_IFSI_TA2 get_CWI_TA2 get_BWI_TA2 get_edc_TA2 get_Di_class get_Fi_class get_fmax_class get_vpp_connected_class get_vpp_class get_vpp_course_class get_ipp_class get_N_class get_protocol_class get_specific_class get_specific_protocol_class get_etu_implicit_class get_may_change_class get_classes_class get_clock_stop_class get_spu_class get_WI_class get_IFSI_class get_CWI_class get_BWI_class get_edc_class get_Di_spu get_Fi_spu get_fmax_spu get_vpp_connected_spu get_vpp_spu get_vpp_course_spu get_ipp_spu get_N_spu get_protocol_spu get_specific_spu get_specific_protocol_spu get_etu_implicit_spu get_may_change_spu get_classes_spu get_clock_stop_spu get_spu_spu get_WI_spu get_IFSI_spu get_CWI_spu get_BWI_spu get_edc_spu get_Di_WI get_Fi_WI get_fmax_WI get_vpp_connected_WI get_vpp_WI get_vpp_course_WI get_ipp_WI get_N_WI get_protocol_WI get_specific_WI get_specific_protocol_WI get_etu_implicit_WI get_may_change_WI get_classes_WI get_clock_stop_WI get_spu_WI get_WI_WI get_IFSI_WI get_CWI_WI get_BWI_WI get_edc_WI get_Di_IFSI get_Fi_IFSI get_fmax_IFSI get_vpp_connected_IFSI get_vpp_IFSI get_vpp_course_IFSI get_ipp_IFSI get_N_IFSI get_protocol_IFSI get_specific_IFSI get_specific_protocol_IFSI get_etu_implicit_IFSI get_may_change_IFSI get_classes_IFSI get_clock_stop_IFSI get_spu_IFSI get_WI_IFSI get_IFSI_IFSI get_CWI_IFSI get_BWI_IFSI get_edc_IFSI get_Di_CB get_Fi_CB get_fmax_CB get_vpp_connected_CB get_vpp_CB get_vpp_course_CB get_ipp_CB get_N_CB get_protocol_CB get_specific_CB get_specific_protocol_CB get_etu_implicit_CB get_may_change_CB get_classes_CB get_clock_stop_CB get_spu_CB get_WI_CB get_IFSI_CB get_CWI_CB get_BWI_CB get_edc_CB get_Di_edc get_Fi_edc get_fmax_edc get_vpp_connected_edc get_vpp_edc get_vpp_course_edc get_ipp_edc get_N_edc get_protocol_edc get_specific_edc get_specific_protocol_edc get_etu_implicit_edc get_may_change_edc get_classes_edc get_clock_stop_edc get_spu_edc get_WI_edc get_IFSI_edc get_CWI_edc get_BWI_edc get_edc_edc : getset.

(** ** Bits *)
Lemma land_bit y k : 0 <= k -> (Z.land y (2 ^ k) =? 0) = negb (Z.testbit y k).
Proof.
  intro K. destruct (Z.testbit y k) eqn:E; cbn [negb].
  - apply Z.eqb_neq. intro H. assert (X : Z.testbit (Z.land y (2 ^ k)) k = false) by (rewrite H; apply Z.bits_0).
    rewrite Z.land_spec, Z.pow2_bits_true, E in X by lia. discriminate.
  - apply Z.eqb_eq. apply Z.bits_inj'. intros n Hn. rewrite Z.land_spec, Z.bits_0, Z.pow2_bits_eqb by lia.
    destruct (Z.eqb_spec k n); [subst; rewrite E; reflexivity|apply andb_false_r].
Qed.
Lemma land15 b : Z.land b 15 = b mod 16.
Proof. change 15 with (Z.ones 4). rewrite Z.land_ones by lia. reflexivity. Qed.

(** ** The loop over the interface bytes *)
Inductive visit : nat -> Z -> list group -> Prop :=
| visit_open y : visit 0 y []
| visit_last n y g : matches y g -> gD g = None -> visit (S n) y [g]
| visit_more n y g t gs : matches y g -> gD g = Some t -> visit n t gs -> visit (S n) y (g :: gs).

Definition opt_step (f : Z -> params -> out (Z + params)) (o : option Z) (p : params) : out (Z + params) :=
  match o with Some b => f b p | None => gives p end.
Definition run_group (i proto : Z) (g : group) (p : params) : out (Z + params) :=
  let! p := opt_step (pick i parse_TA1 parse_TA2 (parse_TAi proto)) (gA g) p in
  let! p := opt_step (pick i parse_TB1 parse_TB2 (parse_TBi proto)) (gB g) p in
  opt_step (pick i parse_TC1 parse_TC2 (parse_TCi proto)) (gC g) p.
Fixpoint run (i proto : Z) (tck : bool) (p : params) (gs : list group) : out (Z + (bool * params)) :=
  match gs with
  | [] => gives (tck, p)
  | g :: gs' =>
    let! p := run_group i proto g p in
    match gD g with
    | None => gives (tck, p)
    | Some t => let! p := parse_TDi i t p in run (i + 1) (Z.land t 15) (tck || negb (Z.land t 15 =? 0)) p gs'
    end
  end.
Definition at_ (o : option Z) (k : nat) : option nat := match o with Some _ => Some k | None => None end.
Fixpoint places (idx : nat) (gs : list group) : list ptrs :=
  match gs with
  | [] => []
  | g :: gs' =>
    let a := S idx in let b := (a + length (oct (gA g)))%nat in let c := (b + length (oct (gB g)))%nat in
    let d := (c + length (oct (gC g)))%nat in
    mkPtrs (at_ (gA g) a) (at_ (gB g) b) (at_ (gC g) c) (at_ (gD g) d) :: match gD g with None => [] | Some _ => places d gs' end
  end.
Fixpoint closed (gs : list group) : bool :=
  match gs with [] => false | g :: gs' => match gD g with None => true | Some _ => closed gs' end end.
Definition is_some {A} (o : option A) : bool := match o with Some _ => true | None => false end.
Lemma present_eq {A} (o : option A) b : (o <> None <-> b = true) -> b = is_some o.
Proof. destruct o; destruct b; cbn; intuition congruence. Qed.

Lemma iface_byte_spec o parse p pre rest buf idx : buf = pre ++ oct o ++ rest -> idx = length pre ->
  iface_byte (is_some o) buf idx parse p = let! p := opt_step parse o p in gives (at_ o idx, (idx + length (oct o))%nat, p).
Proof.
  intros -> ->. destruct o as [b|]; cbn [iface_byte is_some opt_step oct app at_].
  - rewrite rd_app_mid by reflexivity. cbn [bind]. unfold ebind. destruct (parse b p) as [[e|q]| |]; cbn [bind]; try reflexivity.
    unfold gives. do 2 f_equal. cbn [length]. f_equal. f_equal. lia.
  - unfold ebind, gives. cbn [bind length]. rewrite Nat.add_0_r. reflexivity.
Qed.
Lemma ebind_assoc {A B C} (m : out (Z + A)) (k : A -> out (Z + B)) (h : B -> out (Z + C)) :
  ebind (ebind m k) h = ebind m (fun x => ebind (k x) h).
Proof. unfold ebind. destruct m as [[e|a]| |]; reflexivity. Qed.
Lemma ebind_ext {A B} (m : out (Z + A)) (k k' : A -> out (Z + B)) : (forall a, k a = k' a) -> ebind m k = ebind m k'.
Proof. intro H. unfold ebind. destruct m as [[e|a]| |]; cbn [bind]; auto. Qed.

Lemma iface_run n y gs : visit n y gs -> forall i proto tck p acc pre rest buf idx,
  buf = pre ++ y :: flat_map goctets gs ++ rest -> idx = length pre ->
  iface n i buf idx proto tck p acc =
  let! (tck', p') := run i proto tck p gs in
  gives ((idx + length (flat_map goctets gs) + (if closed gs then 1 else 0))%nat, tck', p', acc ++ places idx gs).
Proof.
  induction 1 as [y|n y g M D|n y g t gs M D V IH]; intros i proto tck p acc pre rest buf idx Eb Ei; cbn [iface run].
  - unfold ebind, gives. cbn [bind flat_map length closed places]. rewrite app_nil_r. rewrite !Nat.add_0_r. reflexivity.
  - destruct M as (Ma & Mb & Mc & Md).
    rewrite Eb at 1. rewrite rd_app_mid by exact Ei. cbn [bind].
    change 0x10 with (2 ^ 4). change 0x20 with (2 ^ 5). change 0x40 with (2 ^ 6). change 0x80 with (2 ^ 7).
    rewrite !land_bit, !negb_involutive by lia.
    rewrite (present_eq _ _ Ma), (present_eq _ _ Mb), (present_eq _ _ Mc), (present_eq _ _ Md).
    cbn [flat_map] in Eb. unfold goctets in Eb. rewrite D in Eb. cbn [oct app] in Eb. rewrite ?app_nil_r in Eb. rewrite <- !app_assoc in Eb.
    rewrite (iface_byte_spec (gA g) _ _ (pre ++ [y]) (oct (gB g) ++ oct (gC g) ++ rest)); [|rewrite Eb, <- app_assoc; reflexivity|rewrite app_length; cbn; lia].
    unfold run_group. rewrite !ebind_assoc. apply ebind_ext; intro p1. unfold gives at 1. cbn [ebind bind].
    rewrite (iface_byte_spec (gB g) _ _ (pre ++ [y] ++ oct (gA g)) (oct (gC g) ++ rest)); [|rewrite Eb, <- !app_assoc; reflexivity|rewrite !app_length; cbn [length]; lia].
    rewrite !ebind_assoc. apply ebind_ext; intro p2. unfold gives at 1. cbn [ebind bind].
    rewrite (iface_byte_spec (gC g) _ _ (pre ++ [y] ++ oct (gA g) ++ oct (gB g)) rest); [|rewrite Eb, <- !app_assoc; reflexivity|rewrite !app_length; cbn [length]; lia].
    rewrite !ebind_assoc. apply ebind_ext; intro p3. unfold gives at 1. cbn [ebind bind]. rewrite D. cbn [is_some].
    unfold gives. cbn [ebind bind]. cbn [flat_map closed places]. rewrite D. cbn [at_ app]. do 2 f_equal.
    unfold goctets. rewrite D. cbn [oct]. rewrite !app_nil_r, !app_length. repeat (f_equal; try lia).
  - destruct M as (Ma & Mb & Mc & Md).
    rewrite Eb at 1. rewrite rd_app_mid by exact Ei. cbn [bind].
    change 0x10 with (2 ^ 4). change 0x20 with (2 ^ 5). change 0x40 with (2 ^ 6). change 0x80 with (2 ^ 7).
    rewrite !land_bit, !negb_involutive by lia.
    rewrite (present_eq _ _ Ma), (present_eq _ _ Mb), (present_eq _ _ Mc), (present_eq _ _ Md).
    cbn [flat_map] in Eb. unfold goctets in Eb at 1. rewrite D in Eb. cbn [oct] in Eb. rewrite <- !app_assoc in Eb.
    cbn [app] in Eb.
    rewrite (iface_byte_spec (gA g) _ _ (pre ++ [y]) (oct (gB g) ++ oct (gC g) ++ t :: flat_map goctets gs ++ rest)); [|rewrite Eb, <- app_assoc; reflexivity|rewrite app_length; cbn; lia].
    unfold run_group. rewrite !ebind_assoc. apply ebind_ext; intro p1. unfold gives at 1. cbn [ebind bind].
    rewrite (iface_byte_spec (gB g) _ _ (pre ++ [y] ++ oct (gA g)) (oct (gC g) ++ t :: flat_map goctets gs ++ rest)); [|rewrite Eb, <- !app_assoc; reflexivity|rewrite !app_length; cbn [length]; lia].
    rewrite !ebind_assoc. apply ebind_ext; intro p2. unfold gives at 1. cbn [ebind bind].
    rewrite (iface_byte_spec (gC g) _ _ (pre ++ [y] ++ oct (gA g) ++ oct (gB g)) (t :: flat_map goctets gs ++ rest)); [|rewrite Eb, <- !app_assoc; reflexivity|rewrite !app_length; cbn [length]; lia].
    rewrite !ebind_assoc. apply ebind_ext; intro p3. unfold gives at 1. cbn [ebind bind]. rewrite D. cbn [is_some].
    assert (Eb' : buf = (pre ++ [y] ++ oct (gA g) ++ oct (gB g) ++ oct (gC g)) ++ t :: flat_map goctets gs ++ rest)
      by (rewrite Eb, <- !app_assoc; reflexivity).
    set (idx' := (S idx + length (oct (gA g)) + length (oct (gB g)) + length (oct (gC g)))%nat).
    assert (Ei' : idx' = length (pre ++ [y] ++ oct (gA g) ++ oct (gB g) ++ oct (gC g))) by (unfold idx'; rewrite !app_length; cbn [length]; lia).
    rewrite Eb' at 1. rewrite rd_app_mid by exact Ei'. cbn [bind]. rewrite !ebind_assoc. apply ebind_ext; intro p4.
    rewrite (IH _ _ _ _ _ _ _ _ _ Eb' Ei'). apply ebind_ext; intros (tck' & p'). unfold gives. do 2 f_equal.
    cbn [flat_map closed places]. rewrite D. rewrite <- app_assoc. cbn [app]. fold idx'.
    unfold goctets at 2. rewrite D. cbn [oct]. rewrite !app_length. cbn [length at_].
    f_equal. f_equal. f_equal. unfold idx'. lia.
Qed.

(** Every buffer that is long enough has interface bytes. *)
Lemma take_opt (b : bool) (l : list Z) : (1 <= length l)%nat -> exists o l', (o <> None <-> b = true) /\ l = oct o ++ l' /\ (length l <= S (length l'))%nat.
Proof.
  intro L. destruct b.
  - destruct l as [|x l]; [cbn in L; lia|]. exists (Some x), l. cbn. intuition (try congruence; lia).
  - exists None, l. cbn. intuition (try congruence; lia).
Qed.
Lemma visit_exists n : forall y l, (4 * n <= length l)%nat -> exists gs l', visit n y gs /\ l = flat_map goctets gs ++ l'.
Proof.
  induction n as [|n IH]; intros y l L.
  - exists [], l. split; [constructor|reflexivity].
  - destruct (take_opt (Z.testbit y 4) l) as (oa & la & Ma & -> & L1); [lia|].
    destruct (take_opt (Z.testbit y 5) la) as (ob & lb & Mb & -> & L2); [lia|].
    destruct (take_opt (Z.testbit y 6) lb) as (oc & lc & Mc & -> & L3); [lia|].
    destruct (take_opt (Z.testbit y 7) lc) as (od & ld & Md & -> & L4); [lia|].
    assert (M : matches y (mkGroup oa ob oc od)) by (repeat split; tauto).
    destruct od as [t|].
    + destruct (IH t ld) as (gs & l' & V & ->); [lia|]. exists (mkGroup oa ob oc (Some t) :: gs), l'. split; [apply (visit_more n y _ t gs); auto|].
      cbn [flat_map]. unfold goctets at 2. cbn [gA gB gC gD]. rewrite <- !app_assoc. reflexivity.
    + exists [mkGroup oa ob oc None], ld. split; [apply visit_last; auto|].
      cbn [flat_map]. unfold goctets. cbn [gA gB gC gD]. rewrite app_nil_r, <- !app_assoc. reflexivity.
Qed.
Lemma groups_visit y gs : groups y gs -> forall n, (length gs <= n)%nat -> visit n y gs /\ closed gs = true.
Proof.
  induction 1 as [y g M D|y g t gs M D G IH]; intros [|n] L; cbn [length] in L; try lia.
  - split; [apply visit_last; auto|]. cbn [closed]. rewrite D. reflexivity.
  - destruct (IH n) as (V & C); [lia|]. split; [eapply visit_more; eauto|]. cbn [closed]. rewrite D. exact C.
Qed.
Lemma visit_groups n y gs : visit n y gs -> closed gs = true -> groups y gs /\ (length gs <= n)%nat.
Proof.
  induction 1 as [y|n y g M D|n y g t gs M D V IH]; cbn [closed]; intro C.
  - discriminate.
  - split; [apply groups_last; auto|cbn; lia].
  - rewrite D in C. destruct (IH C) as (G & L). split; [eapply groups_more; eauto|cbn; lia].
Qed.
Lemma visit_len n y gs : visit n y gs -> (length gs <= n)%nat /\ (length (flat_map goctets gs) <= 4 * n)%nat.
Proof.
  assert (Lo : forall o, (length (oct o) <= 1)%nat) by (intros [?|]; cbn; lia).
  assert (Lg : forall g, (length (goctets g) <= 4)%nat).
  { intro g. unfold goctets. rewrite !app_length. pose proof (Lo (gA g)). pose proof (Lo (gB g)). pose proof (Lo (gC g)). pose proof (Lo (gD g)). lia. }
  induction 1 as [y|n y g M D|n y g t gs M D V (IH1 & IH2)]; cbn [length flat_map]; rewrite ?app_length; cbn [length]; try (pose proof (Lg g)); lia.
Qed.

(** ** Bytes and parameters *)
Fixpoint assoc {A} (k : Z) (t : list (Z * A)) : option A :=
  match t with [] => None | (k', v) :: t' => if k =? k' then Some v else assoc k t' end.
Lemma assoc_in {A} k (t : list (Z * A)) : NoDup (map fst t) -> forall v, assoc k t = Some v <-> In (k, v) t.
Proof.
  induction t as [|(k', w) t IH]; cbn [assoc map fst In]; intros N v; [split; [discriminate|tauto]|].
  inversion N as [|? ? N1 N2]; subst. destruct (Z.eqb_spec k k') as [->|E].
  - split; [intros [= ->]; auto|]. intros [[= ->]|I]; [reflexivity|]. exfalso. apply N1. apply in_map_iff. exists (k', v). auto.
  - rewrite IH by auto. split; [auto|]. intros [[= -> ->]|I]; [congruence|auto].
Qed.
Lemma nodup7 : NoDup (map fst table7).
Proof. cbn. repeat constructor; cbn; intuition lia. Qed.
Lemma nodup8 : NoDup (map fst table8).
Proof. cbn. repeat constructor; cbn; intuition lia. Qed.
Definition oeqb (a b : option Z) : bool := match a, b with Some x, Some y => x =? y | None, None => true | _, _ => false end.
Definition oeqb2 (a b : option (Z * Z)) : bool := match a, b with Some (x, x'), Some (y, y') => (x =? y) && (x' =? y') | None, None => true | _, _ => false end.
Lemma di_of_spec b : is_byte b -> di_of (Z.land b 15) = assoc (b mod 16) table8.
Proof.
  intro B. assert (E : oeqb (di_of (Z.land b 15)) (assoc (b mod 16) table8) = true).
  { revert b B. apply (byte_sweep (fun b => oeqb (di_of (Z.land b 15)) (assoc (b mod 16) table8))). vm_compute; reflexivity. }
  destruct (di_of _), (assoc _ _); cbn in E; try discriminate; [|reflexivity]. f_equal. lia.
Qed.
Lemma fi_of_spec b : is_byte b -> fi_of (Z.land b 0xF0) = assoc (b / 16) table7.
Proof.
  intro B. assert (E : oeqb2 (fi_of (Z.land b 0xF0)) (assoc (b / 16) table7) = true).
  { revert b B. apply (byte_sweep (fun b => oeqb2 (fi_of (Z.land b 0xF0)) (assoc (b / 16) table7))). vm_compute; reflexivity. }
  destruct (fi_of _) as [(?,?)|], (assoc _ _) as [(?,?)|]; cbn in E; try discriminate; [|reflexivity]. apply andb_true_iff in E as (E1 & E2).
  f_equal. f_equal; lia.
Qed.
Definition inr_ {A} (a : A) : out (Z + A) := Ret (inr a).
Lemma TA1_spec b p q : is_byte b -> parse_TA1 b p = gives q <->
  exists fi fm di, In (b / 16, (fi, fm)) table7 /\ In (b mod 16, di) table8 /\ q = set_TA1 di fi fm p.
Proof.
  intro B. unfold parse_TA1. rewrite di_of_spec, fi_of_spec by auto. unfold gives, fails. split.
  - destruct (assoc (b mod 16) table8) as [di|] eqn:E8; [|discriminate]. destruct (assoc (b / 16) table7) as [(fi, fm)|] eqn:E7; [|discriminate].
    intros [= <-]. exists fi, fm, di. apply (assoc_in _ _ nodup7) in E7. apply (assoc_in _ _ nodup8) in E8. auto.
  - intros (fi & fm & di & I7 & I8 & ->). apply (assoc_in _ _ nodup7) in I7. apply (assoc_in _ _ nodup8) in I8. rewrite I7, I8. reflexivity.
Qed.
(** TB1: only whether Vpp is connected matters. *)
Lemma TB1_fwd b p q : is_byte b -> parse_TB1 b p = gives q ->
  (b = 0 \/ 5 <= b mod 32 <= 25 /\ (b / 32) mod 4 <= 2) /\ exists v c i, q = set_vpp (negb (b =? 0)) v c i p.
Proof.
  intros B. unfold parse_TB1. destruct (Z.eqb_spec b 0) as [->|N]; [intros [= <-]; split; [auto|]; cbn [negb]; eauto|].
  assert (E1 : Z.land b 31 = b mod 32) by (change 31 with (Z.ones 5); apply Z.land_ones; lia).
  rewrite E1. destruct (Z.ltb_spec (b mod 32) 5); [discriminate|]. destruct (Z.ltb_spec 25 (b mod 32)); [discriminate|]. cbn [orb].
  assert (E2 : Z.land b 0x60 = 32 * ((b / 32) mod 4)).
  { clear -B. apply Z.eqb_eq. revert b B. apply byte_sweep. vm_compute; reflexivity. }
  rewrite E2. assert (R : 0 <= (b / 32) mod 4 < 4) by (apply Z.mod_pos_bound; lia). set (m := (b / 32) mod 4) in *. clearbody m. cbn [negb].
  assert (C : m = 0 \/ m = 1 \/ m = 2 \/ m = 3) by lia. destruct C as [->|[->|[->| ->]]]; cbn; intro E; inversion E; (split; [right; lia|eauto]).
Qed.
Lemma TB1_bwd b p : is_byte b -> b = 0 \/ 5 <= b mod 32 <= 25 /\ (b / 32) mod 4 <= 2 -> exists q, parse_TB1 b p = gives q.
Proof.
  intros B V. unfold parse_TB1. destruct (Z.eqb_spec b 0) as [->|N]; [eauto|]. destruct V as [|(V1 & V2)]; [congruence|].
  assert (E1 : Z.land b 31 = b mod 32) by (change 31 with (Z.ones 5); apply Z.land_ones; lia).
  rewrite E1. destruct (Z.ltb_spec (b mod 32) 5); [lia|]. destruct (Z.ltb_spec 25 (b mod 32)); [lia|]. cbn [orb].
  assert (E2 : Z.land b 0x60 = 32 * ((b / 32) mod 4)).
  { clear -B. apply Z.eqb_eq. revert b B. apply byte_sweep. vm_compute; reflexivity. }
  rewrite E2. assert (R : 0 <= (b / 32) mod 4) by (apply Z.mod_pos_bound; lia). set (m := (b / 32) mod 4) in *. clearbody m.
  assert (C : m = 0 \/ m = 1 \/ m = 2) by lia. destruct C as [->|[->| ->]]; cbn; eauto.
Qed.
Lemma TD_spec i b p q : parse_TDi i b p = gives q <->
  (i = 1 /\ (prot b = 0 \/ prot b = 1) /\ q = set_protocol (prot b) p) \/ (i <> 1 /\ (prot b = 0 \/ prot b = 1 \/ prot b = 15) /\ q = p).
Proof.
  unfold parse_TDi. rewrite land15. fold (prot b). destruct (Z.eqb_spec i 1) as [->|N].
  - destruct (Z.eqb_spec (prot b) 0) as [E0|N0]; [|destruct (Z.eqb_spec (prot b) 1) as [E1|N1]]; cbn [negb andb];
      (split; [intro E; inversion E; left; auto 8|intros [(_ & V & ->)|(X & _)]; [first [reflexivity|exfalso; lia]|congruence]]).
  - destruct (Z.eqb_spec (prot b) 0) as [E0|N0]; [|destruct (Z.eqb_spec (prot b) 1) as [E1|N1]; [|destruct (Z.eqb_spec (prot b) 15) as [E2|N2]]]; cbn [negb andb];
      (split; [intro E; inversion E; right; auto 8|intros [(X & _)|(_ & V & ->)]; [congruence|first [reflexivity|exfalso; lia]]]).
Qed.
Lemma TB2_spec b p q : parse_TB2 b p = gives q <->
  p_vpp_connected p = true /\ 50 <= b <= 250 /\ q = set_vpp true (b * 100) (p_vpp_course p) (p_ipp p) p.
Proof.
  unfold parse_TB2. destruct (p_vpp_connected p); cbn [negb]; [|split; [discriminate|intros ([=] & _)]].
  destruct (Z.ltb_spec b 50), (Z.ltb_spec 250 b); cbn [orb]; (split; [intro E; inversion E; repeat split; auto; lia|intros (_ & ? & ->); first [reflexivity|lia]]).
Qed.
Lemma TC2_spec b p q : parse_TC2 b p = gives q <-> b <> 0 /\ q = set_WI b p.
Proof. unfold parse_TC2. destruct (Z.eqb_spec b 0); (split; [intro E; inversion E; auto|intros (? & ->); first [reflexivity|congruence]]). Qed.

Definition effA (proto b : Z) (p : params) : params :=
  if proto =? 15 then set_class (b mod 64) (b / 64) p else if proto =? 1 then set_IFSI b p else p.
Definition effB (proto b : Z) (p : params) : params :=
  if proto =? 15 then set_spu (if b =? 0 then 0 else if b / 128 =? 0 then 1 else 2) p else if proto =? 1 then set_CB (b mod 16) (b / 16) p else p.
Definition effC (proto b : Z) (p : params) : params := if proto =? 1 then set_edc (b mod 2) p else p.
Lemma TAi_spec proto b p q : is_byte b -> parse_TAi proto b p = gives q <->
  ((proto = 15 -> 1 <= b mod 64 <= 7) /\ (proto = 1 -> 1 <= b <= 254)) /\ q = effA proto b p.
Proof.
  intro B. unfold parse_TAi, effA.
  assert (E1 : Z.land b 0x3F = b mod 64) by (change 0x3F with (Z.ones 6); apply Z.land_ones; lia).
  assert (E2 : Z.shiftr (Z.land b 0xC0) 6 = b / 64) by (clear -B; apply Z.eqb_eq; revert b B; apply byte_sweep; vm_compute; reflexivity).
  rewrite E1, E2. destruct (Z.eqb_spec proto 15) as [->|N15].
  - change (15 =? 1) with false. cbv iota. destruct (Z.ltb_spec 3 (b / 64)); [lia|].
    destruct (Z.ltb_spec (b mod 64) 1), (Z.ltb_spec 7 (b mod 64)); cbn [orb]; unfold ebind, fails, gives; cbn [bind];
      (split; [intro E; inversion E; repeat split; auto; lia|intros ((V & _) & ->); specialize (V eq_refl); first [reflexivity|lia]]).
  - unfold ebind, gives at 1. cbn [bind]. destruct (Z.eqb_spec proto 1) as [->|N1].
    + destruct (Z.eqb_spec b 0), (Z.eqb_spec b 255); cbn [orb]; unfold fails, gives;
        (split; [intro E; inversion E; repeat split; auto; lia|intros ((_ & V) & ->); specialize (V eq_refl); first [reflexivity|lia]]).
    + unfold gives. split; [intros [= <-]; repeat split; auto; lia|intros (_ & ->); reflexivity].
Qed.
Lemma TBi_spec proto b p q : is_byte b -> parse_TBi proto b p = gives q <-> (proto = 1 -> b / 16 <= 9) /\ q = effB proto b p.
Proof.
  intro B. unfold parse_TBi, effB. rewrite land15.
  assert (E2 : Z.shiftr (Z.land b 0xF0) 4 = b / 16) by (clear -B; apply Z.eqb_eq; revert b B; apply byte_sweep; vm_compute; reflexivity).
  assert (E3 : (Z.land b 0x80 =? 0) = (b / 128 =? 0)) by (clear -B; apply Bool.eqb_prop; revert b B; apply (byte_sweep (fun b => Bool.eqb (Z.land b 0x80 =? 0) (b / 128 =? 0))); vm_compute; reflexivity).
  rewrite E2, E3. destruct (Z.eqb_spec proto 15) as [->|N15].
  - change (15 =? 1) with false. cbv iota. unfold gives. split; [intros [= <-]; split; [lia|reflexivity]|intros (_ & ->); reflexivity].
  - destruct (Z.eqb_spec proto 1) as [->|N1].
    + destruct (Z.ltb_spec 15 (b mod 16)); [lia|]. destruct (Z.ltb_spec 9 (b / 16)); unfold fails, gives;
        (split; [intro E; inversion E; split; auto; lia|intros (V & ->); specialize (V eq_refl); first [reflexivity|lia]]).
    + unfold gives. split; [intros [= <-]; split; auto; lia|intros (_ & ->); reflexivity].
Qed.
Lemma TCi_spec proto b p q : is_byte b -> parse_TCi proto b p = gives q <-> q = effC proto b p.
Proof.
  intro B. unfold parse_TCi, effC.
  assert (E3 : (if Z.land b 1 =? 0 then 0 else 1) = b mod 2) by (clear -B; apply Z.eqb_eq; revert b B; apply byte_sweep; vm_compute; reflexivity).
  rewrite E3. destruct (proto =? 1); unfold gives; split; congruence.
Qed.

(** ** All groups *)
Lemma ebind_gives {A B} (m : out (Z + A)) (k : A -> out (Z + B)) v : ebind m k = gives v <-> exists a, m = gives a /\ k a = gives v.
Proof.
  unfold ebind, gives. destruct m as [[e|a]| |]; cbn [bind]; split; try discriminate; try (intros (a' & E & K); congruence); eauto.
Qed.
Lemma gives_inj {A} (a b : A) : gives a = gives b -> a = b.
Proof. unfold gives. congruence. Qed.
Lemma gives_iff {A} (a b : A) : gives a = gives b <-> a = b.
Proof. unfold gives. split; congruence. Qed.
Lemma pick3 {A} i (a b c : A) : 3 <= i -> pick i a b c = c.
Proof. intro H. unfold pick. destruct i as [|p|p]; try lia. destruct p as [p|[p|p|]|]; try reflexivity; lia. Qed.

Definition opt {A} (f : Z -> A -> A) (o : option Z) (a : A) : A := match o with Some b => f b a | None => a end.
Definition eff3 (proto : Z) (g : group) (p : params) : params := opt (effC proto) (gC g) (opt (effB proto) (gB g) (opt (effA proto) (gA g) p)).
Definition valid3 (proto : Z) (g : group) : Prop :=
  (forall b, gA g = Some b -> (proto = 15 -> 1 <= b mod 64 <= 7) /\ (proto = 1 -> 1 <= b <= 254)) /\
  (forall b, gB g = Some b -> proto = 1 -> b / 16 <= 9).
Lemma gbytes g : bytes (goctets g) -> (forall b, gA g = Some b -> is_byte b) /\ (forall b, gB g = Some b -> is_byte b) /\
  (forall b, gC g = Some b -> is_byte b) /\ (forall b, gD g = Some b -> is_byte b).
Proof.
  unfold goctets. rewrite !bytes_app. intros (A & B & C & D).
  assert (X : forall o b, bytes (oct o) -> o = Some b -> is_byte b) by (intros o b H ->; inversion H; auto).
  split; [|split; [|split]]; intros b E; refine (X _ b _ E); assumption.
Qed.
Lemma group3 i proto g p q : 3 <= i -> bytes (goctets g) -> run_group i proto g p = gives q <-> valid3 proto g /\ q = eff3 proto g p.
Proof.
  intros Hi Hb. destruct (gbytes g Hb) as (Ba & Bb & Bc & _). unfold run_group. rewrite !pick3 by auto.
  unfold valid3, eff3. destruct g as [a b c d]; cbn [gA gB gC] in *. rewrite ebind_gives. setoid_rewrite ebind_gives. split.
  - intros (p1 & E1 & p2 & E2 & E3).
    assert (P1 : (forall x, a = Some x -> (proto = 15 -> 1 <= x mod 64 <= 7) /\ (proto = 1 -> 1 <= x <= 254)) /\ p1 = opt (effA proto) a p).
    { destruct a as [a|]; cbn [opt_step opt] in *; [|apply gives_inj in E1; split; [discriminate|congruence]].
      apply TAi_spec in E1; [|auto]. destruct E1 as (V & ->). split; [intros x [= <-]; exact V|reflexivity]. }
    destruct P1 as (V1 & ->).
    assert (P2 : (forall x, b = Some x -> proto = 1 -> x / 16 <= 9) /\ p2 = opt (effB proto) b (opt (effA proto) a p)).
    { destruct b as [b|]; cbn [opt_step opt] in *; [|apply gives_inj in E2; split; [discriminate|congruence]].
      apply TBi_spec in E2; [|auto]. destruct E2 as (V & ->). split; [intros x [= <-]; exact V|reflexivity]. }
    destruct P2 as (V2 & ->). split; [auto|].
    destruct c as [c|]; cbn [opt_step opt] in *; [apply TCi_spec in E3; auto|apply gives_inj in E3; congruence].
  - intros ((V1 & V2) & ->). exists (opt (effA proto) a p). split.
    { destruct a as [a|]; cbn [opt_step opt]; [apply TAi_spec; auto|reflexivity]. }
    exists (opt (effB proto) b (opt (effA proto) a p)). split.
    { destruct b as [b|]; cbn [opt_step opt]; [apply TBi_spec; auto|reflexivity]. }
    destruct c as [c|]; cbn [opt_step opt]; [apply TCi_spec; auto|reflexivity].
Qed.

Definition dvalid (g : group) : Prop := forall d, gD g = Some d -> prot d = 0 \/ prot d = 1 \/ prot d = 15.
Definition needs (g : group) : bool := match gD g with Some d => negb (prot d =? 0) | None => false end.
Definition eff_list (l : list (Z * group)) (p : params) : params := fold_left (fun p x => eff3 (fst x) (snd x) p) l p.
Lemma run3 n t gs : visit n t gs -> forall i tck p r, 3 <= i -> bytes (flat_map goctets gs) ->
  run i (prot t) tck p gs = gives r <->
  Forall (fun x => valid3 (fst x) (snd x)) (tagged (Some t) gs) /\ Forall dvalid gs /\
  r = (tck || existsb needs gs, eff_list (tagged (Some t) gs) p).
Proof.
  induction 1 as [t|n t g M D|n t g u gs M D V IH]; intros i tck p r Hi Hb; cbn [run tagged].
  - rewrite gives_iff. cbn. rewrite orb_false_r. intuition auto; constructor.
  - rewrite ebind_gives. rewrite D. cbn [flat_map] in Hb. apply bytes_app in Hb as (Hg & _). cbn [tagged existsb]. unfold needs. rewrite D. rewrite orb_false_r.
    setoid_rewrite (fun q => group3 i (prot t) g p q Hi Hg). setoid_rewrite gives_iff. split.
    + intros (a & (V & ->) & <-). split; [constructor; [exact V|constructor]|]. split; [constructor; [unfold dvalid; rewrite D; discriminate|constructor]|reflexivity].
    + intros (F & _ & ->). inversion F as [|? ? V]; subst. exists (eff3 (prot t) g p). split; [auto|]. reflexivity.
  - rewrite ebind_gives. rewrite D. cbn [flat_map] in Hb. apply bytes_app in Hb as (Hg & Hr).
    setoid_rewrite (fun q => group3 i (prot t) g p q Hi Hg). setoid_rewrite ebind_gives. setoid_rewrite TD_spec. setoid_rewrite land15. fold (prot u).
    assert (Hi' : 3 <= i + 1) by lia. setoid_rewrite (fun tck p r => IH (i + 1) tck p r Hi' Hr). cbn [existsb]. unfold needs at 2. rewrite D. split.
    + intros (a & (V1 & ->) & b & [(X & _)|(_ & Vd & ->)] & F & Fd & ->); [lia|]. split; [constructor; auto|]. split; [constructor; [unfold dvalid; rewrite D; intros d [= <-]; exact Vd|auto]|].
      rewrite orb_assoc. reflexivity.
    + intros (F & Fd & ->). inversion F as [|? ? V1 F']; subst. inversion Fd as [|? ? V2 Fd']; subst. exists (eff3 (prot t) g p). split; [auto|].
      exists (eff3 (prot t) g p). split; [right; split; [lia|]; split; [apply V2; exact D|reflexivity]|]. split; [auto|]. split; [auto|]. rewrite orb_assoc. reflexivity.
Qed.

Definition kept (p q : params) : Prop :=
  p_Di q = p_Di p /\ p_Fi q = p_Fi p /\ p_N q = p_N p /\ p_protocol q = p_protocol p /\ p_IFSI q = p_IFSI p /\
  p_CWI q = p_CWI p /\ p_BWI q = p_BWI p /\ p_edc q = p_edc p.
Definition ta1_ok (g : group) : Prop := forall b, gA g = Some b -> (exists f, In (b / 16, f) table7) /\ exists d, In (b mod 16, d) table8.
Definition tb1_ok (g : group) : Prop := forall b, gB g = Some b -> b = 0 \/ 5 <= b mod 32 <= 25 /\ (b / 32) mod 4 <= 2.
Definition tb2_ok (g : group) : Prop := forall b, gB g = Some b -> 50 <= b <= 250.
Definition tc2_ok (g : group) : Prop := forall b, gC g = Some b -> b <> 0.

Lemma group1_fwd proto g q : bytes (goctets g) -> run_group 1 proto g default_params = gives q ->
  ta1_ok g /\ tb1_ok g /\
  (exists fm, In (dflt (gA g) 0x11 / 16, (p_Fi q, fm)) table7) /\ In (dflt (gA g) 0x11 mod 16, p_Di q) table8 /\
  p_vpp_connected q = negb (oeqb (gB g) (Some 0)) /\ p_N q = dflt (gC g) 0 /\ p_protocol q = 0 /\ p_WI q = 10 /\
  p_IFSI q = 0x20 /\ p_CWI q = 13 /\ p_BWI q = 4 /\ p_edc q = 0.
Proof.
  intros Hb. destruct (gbytes g Hb) as (Ba & Bb & Bc & _). unfold run_group, pick. rewrite ebind_gives. setoid_rewrite ebind_gives.
  intros (p1 & E1 & p2 & E2 & E3). unfold ta1_ok, tb1_ok. destruct g as [a b c d]; cbn [gA gB gC] in *.
  assert (P1 : (forall x, a = Some x -> (exists f, In (x / 16, f) table7) /\ exists d, In (x mod 16, d) table8) /\
    exists fi fm di, In (dflt a 0x11 / 16, (fi, fm)) table7 /\ In (dflt a 0x11 mod 16, di) table8 /\ p1 = set_TA1 di fi fm default_params).
  { destruct a as [a|]; cbn [opt_step dflt] in *.
    - apply TA1_spec in E1; [|auto]. destruct E1 as (fi & fm & di & I1 & I2 & ->). split; [intros x [= <-]; eauto|]. eauto 8.
    - apply gives_inj in E1. split; [discriminate|]. exists 372, 50, 1. split; [cbn; tauto|]. split; [cbn; tauto|]. rewrite <- E1. reflexivity. }
  destruct P1 as (V1 & fi & fm & di & I7 & I8 & ->).
  assert (P2 : (forall x, b = Some x -> x = 0 \/ 5 <= x mod 32 <= 25 /\ (x / 32) mod 4 <= 2) /\
     exists v w z, p2 = set_vpp (negb (oeqb b (Some 0))) v w z (set_TA1 di fi fm default_params)).
  { destruct b as [b|]; cbn [opt_step oeqb] in *.
    - apply TB1_fwd in E2; [|auto]. destruct E2 as (V & H). split; [intros x [= <-]; exact V|exact H].
    - apply gives_inj in E2. split; [discriminate|]. exists 5000, 5000, 50. rewrite <- E2. reflexivity. }
  destruct P2 as (V2 & v & w & z & ->).
  assert (Eq : q = set_N (dflt c 0) (set_vpp (negb (oeqb b (Some 0))) v w z (set_TA1 di fi fm default_params))).
  { destruct c as [c|]; cbn [opt_step dflt] in *; [apply gives_inj in E3; auto|]. apply gives_inj in E3. rewrite <- E3. reflexivity. }
  subst q. autorewrite with getset. repeat (split; [first [exact V1|exact V2|eauto|exact I8|reflexivity]|]). reflexivity.
Qed.
Lemma group1_bwd proto g p : bytes (goctets g) -> ta1_ok g -> tb1_ok g -> exists q, run_group 1 proto g p = gives q.
Proof.
  intros Hb V1 V2. destruct (gbytes g Hb) as (Ba & Bb & Bc & _). unfold run_group, pick, ta1_ok, tb1_ok in *. setoid_rewrite ebind_gives. setoid_rewrite ebind_gives.
  destruct g as [a b c d]; cbn [gA gB gC] in *.
  assert (P1 : exists p1, opt_step parse_TA1 a p = gives p1).
  { destruct a as [a|]; cbn [opt_step]; [|eauto]. destruct (V1 a eq_refl) as (((fi & fm) & I7) & di & I8). eexists. apply TA1_spec; [auto|]. eauto 8. }
  destruct P1 as (p1 & E1).
  assert (P2 : exists p2, opt_step parse_TB1 b p1 = gives p2).
  { destruct b as [b|]; cbn [opt_step]; [|eauto]. apply TB1_bwd; auto. }
  destruct P2 as (p2 & E2). destruct c as [c|]; cbn [opt_step]; unfold parse_TC1; eauto 8.
Qed.
Lemma group2_fwd proto g p q : bytes (goctets g) -> run_group 2 proto g p = gives q ->
  tb2_ok g /\ (gB g <> None -> p_vpp_connected p = true) /\ tc2_ok g /\ p_WI q = dflt (gC g) (p_WI p) /\ kept p q.
Proof.
  intros Hb. unfold run_group, pick. rewrite ebind_gives. setoid_rewrite ebind_gives.
  intros (p1 & E1 & p2 & E2 & E3). unfold tb2_ok, tc2_ok. destruct g as [a b c d]; cbn [gA gB gC] in *.
  assert (P1 : kept p p1 /\ p_WI p1 = p_WI p /\ p_vpp_connected p1 = p_vpp_connected p).
  { destruct a as [a|]; cbn [opt_step] in *; [|apply gives_inj in E1; subst; unfold kept; auto 12]. unfold parse_TA2 in E1. apply gives_inj in E1. subst p1. unfold kept. autorewrite with getset. auto 12. }
  destruct P1 as (K1 & W1 & C1).
  assert (P2 : kept p p2 /\ p_WI p2 = p_WI p /\ (forall x, b = Some x -> 50 <= x <= 250) /\ (b <> None -> p_vpp_connected p = true)).
  { destruct b as [b|]; cbn [opt_step] in *; [|apply gives_inj in E2; subst; split; [auto|]; split; [auto|]; split; [discriminate|congruence]].
    apply TB2_spec in E2. destruct E2 as (C & V & ->). unfold kept in *. autorewrite with getset. split; [auto|]. split; [auto|]. split; [intros x [= <-]; auto|congruence]. }
  destruct P2 as (K2 & W2 & V2 & C2). split; [auto|]. split; [auto|].
  destruct c as [c|]; cbn [opt_step dflt] in *.
  - apply TC2_spec in E3. destruct E3 as (V & ->). split; [intros x [= <-]; auto|]. unfold kept in *. autorewrite with getset. auto.
  - apply gives_inj in E3. subst q. split; [discriminate|auto].
Qed.
Lemma group2_bwd proto g p : tb2_ok g -> (gB g <> None -> p_vpp_connected p = true) -> tc2_ok g -> exists q, run_group 2 proto g p = gives q.
Proof.
  intros V1 C V2. unfold run_group, pick, tb2_ok, tc2_ok in *. setoid_rewrite ebind_gives. setoid_rewrite ebind_gives.
  destruct g as [a b c d]; cbn [gA gB gC] in *.
  assert (P1 : exists p1, opt_step parse_TA2 a p = gives p1 /\ p_vpp_connected p1 = p_vpp_connected p).
  { destruct a as [a|]; cbn [opt_step]; [|eauto]. unfold parse_TA2. eexists. split; [reflexivity|]. autorewrite with getset. reflexivity. }
  destruct P1 as (p1 & E1 & C1).
  assert (P2 : exists p2, opt_step parse_TB2 b p1 = gives p2).
  { destruct b as [b|]; cbn [opt_step]; [|eauto]. eexists. apply TB2_spec. split; [rewrite C1; apply C; discriminate|]. split; [auto|reflexivity]. }
  destruct P2 as (p2 & E2). 
  assert (P3 : exists p3, opt_step parse_TC2 c p2 = gives p3).
  { destruct c as [c|]; cbn [opt_step]; [|eauto]. eexists. apply TC2_spec. split; [auto|reflexivity]. }
  destruct P3 as (p3 & E3). exists p3, p1. split; [exact E1|]. exists p2. auto.
Qed.

Fixpoint last_for (f : group -> option Z) (t : Z) (l : list (Z * group)) : option Z :=
  match l with
  | [] => None
  | (u, g) :: l' => match last_for f t l' with Some b => Some b | None => if u =? t then f g else None end
  end.
Lemma eff3_kept u g p :
  let q := eff3 u g p in
  p_Di q = p_Di p /\ p_Fi q = p_Fi p /\ p_N q = p_N p /\ p_protocol q = p_protocol p /\ p_WI q = p_WI p /\
  p_IFSI q = dflt (if u =? 1 then gA g else None) (p_IFSI p) /\
  p_CWI q = match (if u =? 1 then gB g else None) with Some b => b mod 16 | None => p_CWI p end /\
  p_BWI q = match (if u =? 1 then gB g else None) with Some b => b / 16 | None => p_BWI p end /\
  p_edc q = match (if u =? 1 then gC g else None) with Some b => b mod 2 | None => p_edc p end.
Proof.
  unfold eff3, effA, effB, effC. destruct g as [a b c d]; cbn [gA gB gC].
  destruct (Z.eqb_spec u 15) as [->|N]; [change (15 =? 1) with false|destruct (u =? 1)];
    destruct a, b, c; cbn [opt dflt]; autorewrite with getset; auto 12.
Qed.
Lemma eff_list_spec l : forall p,
  let q := eff_list l p in
  p_Di q = p_Di p /\ p_Fi q = p_Fi p /\ p_N q = p_N p /\ p_protocol q = p_protocol p /\ p_WI q = p_WI p /\
  p_IFSI q = dflt (last_for gA 1 l) (p_IFSI p) /\
  p_CWI q = match last_for gB 1 l with Some b => b mod 16 | None => p_CWI p end /\
  p_BWI q = match last_for gB 1 l with Some b => b / 16 | None => p_BWI p end /\
  p_edc q = match last_for gC 1 l with Some b => b mod 2 | None => p_edc p end.
Proof.
  induction l as [|(u, g) l IH]; intros p; cbn zeta.
  - cbn. auto 12.
  - unfold eff_list. cbn [fold_left fst snd last_for]. fold (eff_list l (eff3 u g p)).
    specialize (IH (eff3 u g p)). cbn zeta in IH. pose proof (eff3_kept u g p) as K. cbn zeta in K.
    destruct IH as (H1 & H2 & H3 & H4 & H5 & H6 & H7 & H8 & H9). destruct K as (K1 & K2 & K3 & K4 & K5 & K6 & K7 & K8 & K9).
    rewrite H1, H2, H3, H4, H5, H6, H7, H8, H9.
    repeat (split; [assumption|]).
    destruct (last_for gA 1 l), (last_for gB 1 l), (last_for gC 1 l); cbn [dflt]; auto 8.
Qed.
Lemma last_none f l : (forall g, ~ In (1, g) l) -> last_for f 1 l = None /\ first_for f 1 l = None.
Proof.
  induction l as [|(u, g) l IH]; intro H; cbn [last_for first_for]; [auto|].
  destruct IH as (-> & ->); [intros g' I; apply (H g'); right; exact I|].
  destruct (Z.eqb_spec u 1) as [->|]; [exfalso; apply (H g); left; reflexivity|auto].
Qed.
Lemma first_last f l : (forall a t1 b t2 c, l = a ++ (1, t1) :: b ++ (1, t2) :: c -> False) -> last_for f 1 l = first_for f 1 l.
Proof.
  induction l as [|(u, g) l IH]; intro H; cbn [last_for first_for]; [reflexivity|].
  destruct (Z.eqb_spec u 1) as [->|N].
  - assert (X : forall g', ~ In (1, g') l). { intros g' I. apply in_split in I as (l1 & l2 & ->). apply (H [] g l1 g' l2). reflexivity. }
    destruct (last_none f l X) as (-> & ->). destruct (f g); reflexivity.
  - rewrite IH; [destruct (first_for f 1 l); reflexivity|]. intros a t1 b t2 c ->. apply (H ((u, g) :: a) t1 b t2 c). reflexivity.
Qed.

Definition params_ok (gs : list group) (p : params) : Prop :=
  is_rate gs (p_Fi p) (p_Di p) /\ p_N p = par_N gs /\ p_protocol p = par_T gs /\ p_WI p = par_WI gs /\
  p_IFSI p = dflt (last_for gA 1 (specific gs)) 0x20 /\
  p_CWI p = dflt (last_for gB 1 (specific gs)) 0x4D mod 16 /\
  p_BWI p = dflt (last_for gB 1 (specific gs)) 0x4D / 16 /\
  p_edc p = dflt (last_for gC 1 (specific gs)) 0 mod 2.

Lemma dvalid_nth gs : Forall dvalid gs -> forall k b, (match nth_error gs k with Some g => gD g | None => None end) = Some b -> prot b = 0 \/ prot b = 1 \/ prot b = 15.
Proof.
  intros F k b E. destruct (nth_error gs k) as [g|] eqn:N; [|discriminate]. rewrite Forall_forall in F. apply (F g); [eapply nth_error_In; eauto|exact E].
Qed.
Lemma run_fwd t0 gs tck p : visit 4 t0 gs -> bytes (flat_map goctets gs) -> run 1 0 false default_params gs = gives (tck, p) ->
  iso_valid gs /\ tck = existsb needs gs /\ params_ok gs p.
Proof.
  intros V B E. inversion V as [|? ? g1 M1 D1|? ? g1 t1 gs1 M1 D1 V1]; subst; cbn [flat_map] in B; apply bytes_app in B as (B1 & B);
    cbn [run] in E; apply ebind_gives in E as (p1 & E1 & E); apply (group1_fwd _ _ _ B1) in E1;
    destruct E1 as (A1 & A2 & A3 & A4 & A5 & A6 & A7 & A8 & A9 & A10 & A11 & A12); rewrite D1 in E.
  - apply gives_inj in E. injection E as <- <-. split; [|split].
    + unfold iso_valid, byte_of. cbn [nth_error Nat.sub specific]. repeat (split; [first [exact A1|exact A2|rewrite D1; discriminate|discriminate]|]).
      split; [|intros ? ? []]. intros [|[|i]] b Hi; [lia|lia|]. cbn [Nat.sub nth_error]. destruct i; discriminate.
    + cbn. unfold needs. rewrite D1. reflexivity.
    + unfold params_ok, is_rate, par_N, par_T, par_WI, byte_of. cbn [nth_error Nat.sub specific last_for dflt]. rewrite D1. cbn [dflt]. rewrite A7, A8, A9, A10, A11, A12. auto 12.
  - apply ebind_gives in E as (p1' & Ed & E). apply TD_spec in Ed. destruct Ed as [(_ & T1 & ->)|(X & _)]; [|congruence].
    rewrite land15 in E. fold (prot t1) in E. change (1 + 1) with 2 in E.
    inversion V1 as [|? ? g2 M2 D2|? ? g2 t2 gs2 M2 D2 V2]; subst; cbn [flat_map] in B; apply bytes_app in B as (B2 & B);
      cbn [run] in E; apply ebind_gives in E as (p2 & E2 & E); apply (group2_fwd _ _ _ _ B2) in E2;
      destruct E2 as (G1 & G2 & G3 & G4 & K1 & K2 & K3 & K4 & K5 & K6 & K7 & K8); rewrite D2 in E;
      revert G2 G4 K1 K2 K3 K4 K5 K6 K7 K8; autorewrite with getset; intros G2 G4 K1 K2 K3 K4 K5 K6 K7 K8.
    + apply gives_inj in E. injection E as <- <-. split; [|split].
      * unfold iso_valid, byte_of. cbn [nth_error Nat.sub specific tagged]. split; [exact A1|]. split; [exact A2|]. split; [rewrite D1; intros b [= <-]; exact T1|].
        split; [intros b Eb; split; [apply G1; exact Eb|]; rewrite Eb in G2; rewrite A5 in G2; specialize (G2 ltac:(discriminate)); intro Y; rewrite Y in G2; discriminate|].
        split; [exact G3|]. split; [|intros ? ? []]. intros i b Hi Eb. exfalso. destruct i as [|[|[|i]]]; try lia; cbn [Nat.sub nth_error] in Eb; [congruence|destruct i; discriminate].
      * cbn. unfold needs. rewrite D1, D2. rewrite orb_false_r. reflexivity.
      * unfold params_ok, is_rate, par_N, par_T, par_WI, byte_of. cbn [nth_error Nat.sub specific tagged]. rewrite D1. cbn [dflt last_for].
        rewrite K1, K2, K3, K4, K5, K6, K7, K8, G4, A8, A9, A10, A11, A12. auto 12.
    + apply ebind_gives in E as (p2' & Ed & E). apply TD_spec in Ed. destruct Ed as [(X & _)|(_ & T2 & ->)]; [lia|].
      rewrite land15 in E. fold (prot t2) in E. change (2 + 1) with 3 in E.
      apply (run3 _ _ _ V2) in E; [|lia|exact B]. destruct E as (F & Fd & [= -> ->]).
      pose proof (eff_list_spec (tagged (Some t2) gs2) p2) as Q. cbn zeta in Q. destruct Q as (Q1 & Q2 & Q3 & Q4 & Q5 & Q6 & Q7 & Q8 & Q9).
      split; [|split].
      * unfold iso_valid. cbn [specific]. rewrite D2. unfold byte_of. cbn [nth_error Nat.sub].
        split; [exact A1|]. split; [exact A2|]. split; [rewrite D1; intros b [= <-]; exact T1|].
        split; [intros b Eb; split; [apply G1; exact Eb|]; rewrite Eb in G2; rewrite A5 in G2; specialize (G2 ltac:(discriminate)); intro Y; rewrite Y in G2; discriminate|].
        split; [exact G3|]. split.
        { intros i b Hi Eb. destruct i as [|[|i]]; try lia. cbn [Nat.sub nth_error] in Eb. revert Eb. apply (dvalid_nth (g2 :: gs2)). constructor; [|exact Fd]. unfold dvalid. rewrite D2. intros d [= <-]; exact T2. }
        { intros t g I. rewrite Forall_forall in F. apply (F _ I). }
      * cbn [existsb]. unfold needs at 2 3. rewrite D1, D2. rewrite orb_assoc. reflexivity.
      * unfold params_ok, is_rate, par_N, par_T, par_WI, byte_of. cbn [specific nth_error Nat.sub]. rewrite D1, D2. cbn [dflt].
        rewrite Q1, Q2, Q3, Q4, Q5, Q6, Q7, Q8, Q9, K1, K2, K3, K4, K5, K6, K7, K8, G4, A8, A9, A10, A11, A12. repeat (split; [assumption || auto|]); auto; cbn [dflt]; try (destruct (last_for gB 1 (tagged (Some t2) gs2)), (last_for gC 1 (tagged (Some t2) gs2)); cbn [dflt]; reflexivity).
Qed.
#[local] Opaque run_group.
Lemma run_bwd t0 gs : visit 4 t0 gs -> bytes (flat_map goctets gs) -> iso_valid gs -> exists r, run 1 0 false default_params gs = gives r.
Proof.
  intros V B (I1 & I2 & I3 & I4 & I5 & I6 & I7).
  inversion V as [|? ? g1 M1 D1|? ? g1 t1 gs1 M1 D1 V1]; subst; cbn [flat_map] in B; apply bytes_app in B as (B1 & B);
    cbn [run]; setoid_rewrite ebind_gives; rewrite D1; unfold byte_of in *; cbn [nth_error Nat.sub] in *;
    destruct (group1_bwd 0 g1 default_params B1 I1 I2) as (p1 & E1).
  - eexists; exists p1. eauto.
  - setoid_rewrite ebind_gives. setoid_rewrite TD_spec.
    rewrite D1 in *.
    pose proof (group1_fwd _ _ _ B1 E1) as (_ & _ & _ & _ & A5 & _).
    assert (T1 := I3 t1 eq_refl). rewrite land15. fold (prot t1).
    assert (X : exists r, run (1 + 1) (prot t1) (false || negb (prot t1 =? 0)) (set_protocol (prot t1) p1) gs1 = gives r).
    { change (1 + 1) with 2. set (tk := (_ || _)%bool). clearbody tk.
      inversion V1 as [|? ? g2 M2 D2|? ? g2 t2 gs2 M2 D2 V2]; subst; cbn [flat_map] in B; apply bytes_app in B as (B2 & B);
      cbn [run]; setoid_rewrite ebind_gives; rewrite D2; cbn [nth_error Nat.sub] in *;
      (destruct (group2_bwd (prot t1) g2 (set_protocol (prot t1) p1)) as (p2 & E2);
        [intros b Eb; apply (I4 b Eb)|autorewrite with getset; rewrite A5; destruct (gB g2) as [b|] eqn:Eb; [|congruence]; intros _; destruct (I4 b eq_refl) as (_ & N); destruct (gB g1) as [b1|]; [|reflexivity]; cbn [oeqb]; destruct (Z.eqb_spec b1 0); [subst; congruence|reflexivity]|exact I5|]).
      - eexists; exists p2. eauto.
      - setoid_rewrite ebind_gives. setoid_rewrite TD_spec. rewrite land15. fold (prot t2). change (2 + 1) with 3.
        eexists; exists p2. split; [exact E2|]. exists p2. split.
        { right. split; [lia|]. split; [|reflexivity]. apply (I6 2%nat); [lia|]. cbn. exact D2. }
        apply (run3 _ _ _ V2); [lia|exact B|]. cbn [specific] in I7. rewrite D2 in I7. split; [|split; [|reflexivity]].
        { apply Forall_forall. intros (u, g) I. apply (I7 u g I). }
        { apply Forall_forall. intros g I d Ed. apply In_nth_error in I as (k & Ek). apply (I6 (S (S (S k)))); [lia|]. cbn. rewrite Ek. exact Ed. } }
    destruct X as (r & Er). exists r, p1. split; [exact E1|]. exists (set_protocol (prot t1) p1). split; [left; auto|exact Er].
Qed.
Lemma needs_spec gs : existsb needs gs = true <-> tck_required gs.
Proof.
  rewrite existsb_exists. unfold tck_required, needs. split.
  - intros (g & I & N). destruct (gD g) as [d|] eqn:E; [|discriminate]. exists g, d. repeat split; auto. destruct (Z.eqb_spec (prot d) 0); [discriminate|auto].
  - intros (g & t & I & E & N). exists g. split; [auto|]. rewrite E. destruct (Z.eqb_spec (prot t) 0); [congruence|reflexivity].
Qed.

(** ** Historical bytes *)
Definition ne (l : list Z) : Prop := l <> [].
Definition henc (objs : list (Z * list Z)) : list Z := flat_map (fun o => ctlv_enc (fst o) (snd o)) objs.
Lemma status_fold objs : forall d, fold_left (fun st o => if c_tag o =? 8 then Some (c_val o) else st) (map ctlv_of objs) d = status_in objs d.
Proof.
  unfold status_in. induction objs as [|o objs IH] using rev_ind; intro d; [reflexivity|].
  rewrite map_app, fold_left_app, rev_app_distr, IH. cbn [map fold_left rev app find ctlv_of c_tag c_val]. destruct (fst o =? 8); reflexivity.
Qed.
Lemma parse_historical_spec h d : bytes h ->
  (exists objs, h <> [] /\ Forall ctlv_ok objs /\ h = henc objs /\ parse_historical h d = gives (status_in objs d)) \/
  (exists e, parse_historical h d = fails e /\ ~ (compact h /\ ne h)).
Proof.
  intro B. unfold parse_historical, ctlv_itr_init. destruct h as [|b h].
  - right. exists 24. cbn. split; [reflexivity|]. unfold ne. tauto.
  - cbn [length Nat.eqb]. destruct (ctlv_itr_any (S (length (b :: h))) (b :: h) B) as (objs & rest & e & E & F & L & Eh & Er & Nx); [lia|].
    cbn [length] in E. rewrite E. cbn [bind]. destruct (Z.eqb_spec e 0) as [->|Ne].
    + left. exists objs. assert (rest = []) by (apply Er; reflexivity). subst rest. rewrite app_nil_r in Eh. split; [discriminate|]. split; [auto|]. split; [exact Eh|]. rewrite status_fold. reflexivity.
    + right. exists 25. split; [reflexivity|]. intros ((objs' & F' & Eh') & _). apply Ne.
      pose proof (ctlv_itr_objs objs' F' (S (S (length h)))) as K. rewrite <- Eh' in K. cbn [length] in K. rewrite K in E by lia. congruence.
Qed.
Lemma parse_hist_spec pre hist rest K buf idx : buf = pre ++ hist ++ rest -> idx = length pre -> Zlen hist = K -> bytes hist ->
  match parse_hist buf idx K with
  | NoFuel => False
  | UB => exists l, hist = 0 :: l /\ (length l < 3)%nat
  | Ret (inl e) => e = 5 /\ ~ hist_valid ne hist
  | Ret (inr (t1, h, st, next)) => hist_valid ne hist /\ next = (idx + length hist)%nat /\ status_spec hist st /\
      (forall l, hist = 0 :: l -> (3 <= length l)%nat)
  end.
Proof.
  intros -> -> EK B. unfold parse_hist. destruct (Z.eqb_spec K 0) as [E0|N0].
  - assert (hist = []) by (destruct hist; [reflexivity|unfold Zlen in EK; cbn [length] in EK; lia]). subst hist. cbn. repeat split; auto. discriminate.
  - destruct hist as [|t1 l]; [unfold Zlen in EK; cbn in EK; lia|]. cbn [app]. rewrite rd_app_mid by reflexivity. cbn [bind].
    assert (El : (Z.to_nat K - 1)%nat = length l) by (unfold Zlen in EK; cbn [length] in EK; lia). rewrite El.
    assert (Bl : bytes l) by (inversion B; auto).
    assert (Esub : sub (pre ++ t1 :: l ++ rest) (S (length pre)) (length l) = Ret l).
    { replace (pre ++ t1 :: l ++ rest) with ((pre ++ [t1]) ++ l ++ rest) by (rewrite <- app_assoc; reflexivity).
      apply sub_app; [rewrite app_length; cbn; lia|reflexivity]. }
    assert (D : t1 = 0 \/ t1 = 0x80 \/ (t1 <> 0 /\ t1 <> 0x80)) by lia.
    destruct D as [->|[->|(N1 & N2)]].
    + destruct (Nat.ltb_spec (length l) 3) as [Hl|Hl]; [eauto|].
      assert (Hsplit : l = firstn (length l - 3) l ++ skipn (length l - 3) l) by (symmetry; apply firstn_skipn).
      set (o := firstn (length l - 3) l) in *. set (si := skipn (length l - 3) l) in *.
      assert (Lo : length o = (length l - 3)%nat) by (unfold o; rewrite firstn_length; lia).
      assert (Ls : length si = 3%nat) by (unfold si; rewrite skipn_length; lia).
      assert (E1 : sub (pre ++ 0 :: l ++ rest) (S (length pre)) (length l - 3) = Ret o).
      { rewrite Hsplit at 1. replace (pre ++ 0 :: (o ++ si) ++ rest) with ((pre ++ [0]) ++ o ++ (si ++ rest)) by (rewrite <- !app_assoc; reflexivity).
        apply sub_app; [rewrite app_length; cbn; lia|lia]. }
      assert (E2 : sub (pre ++ 0 :: l ++ rest) (S (length pre) + (length l - 3)) 3 = Ret si).
      { rewrite Hsplit at 1. replace (pre ++ 0 :: (o ++ si) ++ rest) with ((pre ++ [0] ++ o) ++ si ++ rest) by (rewrite <- !app_assoc; reflexivity).
        apply sub_app; [rewrite !app_length; cbn [length]; lia|lia]. }
      rewrite E1. cbn [bind]. rewrite E2. cbn [bind].
      assert (Bo : bytes o) by (unfold o; apply bytes_firstn; auto).
      assert (Inj : forall o' si', l = o' ++ si' -> length si' = 3%nat -> o' = o /\ si' = si).
      { intros o' si' El' L'. assert (length o' = length o) by (pose proof (f_equal (@length _) El'); rewrite app_length in *; lia).
        rewrite Hsplit in El'. split.
        - pose proof (f_equal (firstn (length o)) El') as X. rewrite firstn_length_app in X. rewrite <- H, firstn_length_app in X. congruence.
        - pose proof (f_equal (skipn (length o)) El') as X. rewrite skipn_length_app in X. rewrite <- H, skipn_length_app in X. congruence. }
      destruct (parse_historical_spec o (Some si) Bo) as [(objs & N & F & Eo & ->)|(e & -> & Nv)]; cbn [bind]; unfold gives, fails; cbn [bind].
      * split; [cbn; exists o, si; split; [exact Hsplit|]; split; [exact Ls|]; split; [exists objs; auto|exact N]|].
        split; [cbn [length]; lia|]. split; [cbn; exists objs, si; split; [exact F|]; split; [rewrite Hsplit at 1; rewrite Eo; reflexivity|]; auto|].
        intros l' [= <-]. exact Hl.
      * split; [reflexivity|]. intro V. cbn in V. destruct V as (o' & si' & El' & L' & C & N). destruct (Inj _ _ El' L') as (-> & ->). apply Nv. auto.
    + rewrite Esub. cbn [bind]. destruct (parse_historical_spec l None Bl) as [(objs & N & F & Eo & ->)|(e & -> & Nv)]; cbn [bind]; unfold gives, fails; cbn [bind].
      * split; [cbn; split; [exists objs; auto|exact N]|]. split; [cbn [length]; lia|]. split; [cbn; exists objs; auto|]. discriminate.
      * split; [reflexivity|]. intro V. apply Nv. exact V.
    + assert (X : forall A (a b c : A), (match t1 with 0x00 => a | 0x80 => b | _ => c end) = c).
      { intros A a b c. destruct t1 as [|q|q]; [congruence| |reflexivity]. repeat (destruct q as [q|q|]; try reflexivity). congruence. }
      rewrite X. rewrite Esub. cbn [bind]. unfold gives. unfold hist_valid, status_spec. rewrite !X.
      split; [exact I|]. split; [cbn [length]; lia|]. split; [reflexivity|]. intros l' [= -> _]. congruence.
Qed.
Lemma xors_fold l : forall a, fold_left Z.lxor l a = Z.lxor a (xors l).
Proof. induction l as [|b l IH]; intro a; cbn [fold_left xors]; [rewrite Z.lxor_0_r; reflexivity|]. rewrite IH, Z.lxor_assoc. reflexivity. Qed.

(** ** The whole ATR *)
Definition finish (atr buf : list Z) (TS T0 : Z) (idx : nat) (tck : bool) (p : params) (ps : list ptrs) : out (Z + info) :=
  let K := Z.land T0 0x0F in
  let '(gt, cgt) := compute_gt p in
  let '(wt, cwt, bwt) := compute_wt p in
  if (length atr <? idx)%nat then fails 3
  else if (length atr <? idx + Z.to_nat K)%nat then fails 4
  else
    let! (t1, hist, status, idx) := parse_hist buf idx K in
    if (length atr <? idx)%nat then fails 6
    else
      let! TCK := (if tck then
          if (length atr <=? idx)%nat then fails 7
          else
            let* TCK := rd buf idx in
            let* l := sub buf 1 idx in
            if fold_left Z.lxor l 0 =? 0 then gives TCK else fails 8
        else gives 0) in
      let '(lcs, sw1, sw2) := status_fields status in
      gives (mkInfo buf (length atr) TS T0 ps K t1 hist status TCK p gt cgt wt cwt bwt lcs sw1 sw2).
Definition end_of (gs : list group) : nat := (1 + length (flat_map goctets gs) + (if closed gs then 1 else 0))%nat.
Lemma atr_unfold ts t0 tl gs r :
  let atr := ts :: t0 :: tl in
  (length atr <= 33)%nat -> visit 4 t0 gs -> tl ++ repeat 0 (33 - length atr) = flat_map goctets gs ++ r ->
  atr_parse atr =
  if negb (ts =? 0x3B) && negb (ts =? 0x3F) then fails 2
  else let! (tck, p) := run 1 0 false default_params gs in finish atr (atr ++ repeat 0 (33 - length atr)) ts t0 (end_of gs) tck p (places 1 gs).
Proof.
  intros atr L V E. unfold atr_parse. fold atr.
  destruct (Nat.ltb_spec (length atr) 2) as [H|_]; [unfold atr in H; cbn in H; lia|].
  destruct (Nat.ltb_spec 33 (length atr)) as [H|_]; [lia|]. cbn [orb].
  change (rd atr 0) with (Ret ts). change (rd atr 1) with (Ret t0). cbn [bind].
  destruct (negb (ts =? 0x3B) && negb (ts =? 0x3F)); [reflexivity|].
  rewrite (iface_run 4 t0 gs V 1 0 false default_params [] [ts] r); [|change ([ts] ++ t0 :: flat_map goctets gs ++ r) with (ts :: t0 :: flat_map goctets gs ++ r); rewrite <- E; reflexivity|reflexivity].
  rewrite ebind_assoc. apply ebind_ext. intros (tck, p). unfold gives at 1. cbn [ebind bind]. reflexivity.
Qed.
Lemma atr_shape atr : (2 <= length atr <= 33)%nat -> exists ts t0 tl gs r, atr = ts :: t0 :: tl /\ visit 4 t0 gs /\
  tl ++ repeat 0 (33 - length atr) = flat_map goctets gs ++ r.
Proof.
  intros L. destruct atr as [|ts [|t0 tl]]; cbn [length] in L; try lia.
  destruct (visit_exists 4 t0 (tl ++ repeat 0 (33 - length (ts :: t0 :: tl)))) as (gs & r & V & E).
  { rewrite app_length, repeat_length. cbn [length]. lia. }
  exists ts, t0, tl, gs, r. auto.
Qed.
Lemma prefix_app {A} (a b c d : list A) : a ++ b = c ++ d -> (length c <= length a)%nat -> exists e, a = c ++ e /\ d = e ++ b.
Proof.
  revert c. induction a as [|x a IH]; intros c E L.
  - destruct c; [|cbn in L; lia]. exists []. cbn in *. auto.
  - destruct c as [|y c]; [exists (x :: a); cbn in *; auto|]. cbn in E, L. injection E as -> E. destruct (IH c E) as (e & -> & ->); [lia|]. exists e. auto.
Qed.
Lemma open_td4 ts t0 tl gs r m : visit 4 t0 gs -> closed gs = false -> tl ++ repeat 0 m = flat_map goctets gs ++ r ->
  (end_of gs <= S (S (length tl)))%nat -> td4 (ts :: t0 :: tl).
Proof.
  intros V C E L. inversion V as [|? ? g1 M1 D1|? ? g1 t1 gs1 M1 D1 V1]; subst; cbn [closed] in C; rewrite D1 in C; [discriminate|].
  inversion V1 as [|? ? g2 M2 D2|? ? g2 t2 gs2 M2 D2 V2]; subst; cbn [closed] in C; rewrite D2 in C; [discriminate|].
  inversion V2 as [|? ? g3 M3 D3|? ? g3 t3 gs3 M3 D3 V3]; subst; cbn [closed] in C; rewrite D3 in C; [discriminate|].
  inversion V3 as [|? ? g4 M4 D4|? ? g4 t4 gs4 M4 D4 V4]; subst; cbn [closed] in C; rewrite D4 in C; [discriminate|].
  unfold end_of in L. cbn [closed] in L. rewrite D1, D2, D3, D4, C in L. cbn [flat_map] in E, L. rewrite !app_length in L.
  assert (1 <= length (goctets g4))%nat by (unfold goctets; rewrite D4, !app_length; cbn [oct length]; lia).
  rewrite <- !app_assoc in E. change (tl ++ repeat 0 m = goctets g1 ++ (goctets g2 ++ (goctets g3 ++ (goctets g4 ++ flat_map goctets gs4 ++ r)))) in E.
  replace (goctets g1 ++ goctets g2 ++ goctets g3 ++ goctets g4 ++ flat_map goctets gs4 ++ r) with
    ((goctets g1 ++ goctets g2 ++ goctets g3) ++ goctets g4 ++ flat_map goctets gs4 ++ r) in E by (rewrite <- !app_assoc; reflexivity).
  apply prefix_app in E; [|rewrite !app_length; lia]. destruct E as (e & -> & _).
  exists ts, t0, g1, g2, g3, t1, t2, t3, e. rewrite <- !app_assoc. repeat (split; [auto|]).
  destruct M4 as (_ & _ & _ & M4). apply M4. rewrite D4. discriminate.
Qed.

(** No step has undefined behaviour; errors are positive. *)
Definition okm {A} (m : out (Z + A)) : Prop := match m with Ret (inl e) => 0 < e | Ret (inr _) => True | _ => False end.
Lemma okm_bind {A B} (m : out (Z + A)) (k : A -> out (Z + B)) : okm m -> (forall a, okm (k a)) -> okm (ebind m k).
Proof. unfold ebind. destruct m as [[e|a]| |]; cbn; auto. Qed.
Lemma okm_parse : (forall b p, okm (parse_TA1 b p)) /\ (forall b p, okm (parse_TB1 b p)) /\ (forall b p, okm (parse_TC1 b p)) /\
  (forall i b p, okm (parse_TDi i b p)) /\ (forall b p, okm (parse_TA2 b p)) /\ (forall b p, okm (parse_TB2 b p)) /\ (forall b p, okm (parse_TC2 b p)) /\
  (forall t b p, okm (parse_TAi t b p)) /\ (forall t b p, okm (parse_TBi t b p)) /\ (forall t b p, okm (parse_TCi t b p)).
Proof.
  repeat split; intros; unfold parse_TA1, parse_TB1, parse_TC1, parse_TDi, parse_TA2, parse_TB2, parse_TC2, parse_TBi, parse_TCi, parse_TAi, gives, fails.
  - destruct (di_of _); [|cbn; lia]. destruct (fi_of _) as [(?,?)|]; cbn; lia || exact I.
  - destruct (b =? 0); [exact I|]. destruct (_ || _); [cbn; lia|]. assert (X : 0 < 13) by lia.
    destruct (Z.land b 96) as [|q|q]; try exact I; try exact X. do 7 (destruct q as [q|q|]; try exact X; try exact I).
  - destruct (i =? 1); destruct (_ && _); cbn; lia || exact I.
  - destruct (negb _); [cbn; lia|]. destruct (_ || _); cbn; lia || exact I.
  - destruct (b =? 0); cbn; lia || exact I.
  - apply okm_bind; [destruct (t =? 15); [|exact I]; destruct (_ || _); [cbn; lia|]; destruct (3 <? _); cbn; lia || exact I|].
    intro a. destruct (t =? 1); [|exact I]. destruct (_ || _); cbn; lia || exact I.
  - destruct (t =? 1); [|exact I]. destruct (15 <? _); [cbn; lia|]. destruct (9 <? _); cbn; lia || exact I.
  - destruct (t =? 1); exact I.
Qed.
Lemma okm_opt f o p : (forall b p, okm (f b p)) -> okm (opt_step f o p).
Proof. intro H. destruct o; cbn; [apply H|exact I]. Qed.
#[local] Transparent run_group.
Lemma okm_run gs : forall i proto tck p, okm (run i proto tck p gs).
Proof.
  destruct okm_parse as (H1 & H2 & H3 & H4 & H5 & H6 & H7 & H8 & H9 & H10).
  induction gs as [|g gs IH]; intros; cbn [run]; [exact I|]. apply okm_bind.
  - unfold run_group. assert (P : forall A (a b c : A), pick i a b c = a \/ pick i a b c = b \/ pick i a b c = c).
    { intros. unfold pick. destruct i as [|[q|[q|q|]|]|q]; auto. }
    repeat (apply okm_bind; [apply okm_opt; intros b q; match goal with |- context [pick i ?x ?y ?z] => destruct (P _ x y z) as [->|[->| ->]]; auto end|intro]).
    apply okm_opt; intros b q. match goal with |- context [pick i ?x ?y ?z] => destruct (P _ x y z) as [->|[->| ->]]; auto end.
  - intro q. destruct (gD g); [|exact I]. apply okm_bind; [apply H4|]. intro. apply IH.
Qed.
#[local] Opaque run_group.

Definition good_ts (ts : Z) : Prop := ts = 0x3B \/ ts = 0x3F.
Lemma tck_split atr ts t0 tl gs hist rest : atr = ts :: t0 :: tl -> tl = flat_map goctets gs ++ hist ++ rest ->
  (length atr <= S (S (length (flat_map goctets gs) + length hist)))%nat \/
  exists c rest', rest = c :: rest'.
Proof. intros -> ->. destruct rest; [left; cbn [length]; rewrite !app_length; cbn [length]; lia|right; eauto]. Qed.

Lemma atr_cases atr : bytes atr -> (2 <= length atr <= 33)%nat -> ~ td4 atr ->
  match atr_parse atr with
  | NoFuel => False
  | UB => exists ts t0 gs l rest, atr = ts :: t0 :: flat_map goctets gs ++ (0 :: l) ++ rest /\ good_ts ts /\ groups t0 gs /\ (length gs <= 4)%nat /\
      Zlen (0 :: l) = t0 mod 16 /\ iso_valid gs /\ (length l < 3)%nat
  | Ret (inl e) => 0 < e
  | Ret (inr x) => exists ts t0 gs hist tck rest, layout atr ts t0 gs hist tck rest /\ good_ts ts /\ (length gs <= 4)%nat /\
      iso_valid gs /\ hist_valid ne hist /\ tck_valid t0 gs hist tck /\
      params_ok gs (i_params x) /\ i_ptrs x = places 1 gs /\ i_atr x = atr ++ repeat 0 (33 - length atr) /\
      compute_gt (i_params x) = (i_GT x, i_CGT x) /\ compute_wt (i_params x) = (i_WT x, i_CWT x, i_BWT x) /\
      status_spec hist (i_status x) /\ status_fields (i_status x) = (i_LCS x, i_SW1 x, i_SW2 x)
  end.
Proof.
  intros B L Ntd. destruct (atr_shape atr L) as (ts & t0 & tl & gs & r & Ea & V & E).
  assert (Bb : bytes (ts :: t0 :: tl ++ repeat 0 (33 - length atr))).
  { rewrite Ea in B. change (bytes ((ts :: t0 :: tl) ++ repeat 0 (33 - length atr))). apply bytes_app_intro; [exact B|].
    apply Forall_forall. intros y Hy. apply repeat_spec in Hy. subst. unfold is_byte; lia. }
  assert (Bg : bytes (flat_map goctets gs)).
  { rewrite E in Bb. apply Forall_inv_tail, Forall_inv_tail in Bb. apply bytes_app in Bb. tauto. }
  pose proof (atr_unfold ts t0 tl gs r) as U. cbn zeta in U. rewrite <- Ea in U. rewrite U by (auto; lia). clear U.
  assert (Lat : length atr = S (S (length tl))) by (rewrite Ea; reflexivity).
  destruct (negb (ts =? 0x3B) && negb (ts =? 0x3F)) eqn:Ets; [unfold fails; lia|].
  assert (Gt : good_ts ts) by (unfold good_ts; destruct (Z.eqb_spec ts 0x3B), (Z.eqb_spec ts 0x3F); cbn in Ets; auto; discriminate).
  pose proof (okm_run gs 1 0 false default_params) as Ok.
  destruct (run 1 0 false default_params gs) as [[e|(tck, p)]| |] eqn:Er; cbn [ebind bind okm] in *; try contradiction; [exact Ok|].
  destruct (run_fwd t0 gs tck p V Bg Er) as (Vi & Et & Pp). clear Ok Er.
  set (buf := atr ++ repeat 0 (33 - length atr)).
  unfold finish. destruct (compute_gt p) as (gt, cgt) eqn:Egt. destruct (compute_wt p) as ((wt, cwt), bwt) eqn:Ewt.
  destruct (Nat.ltb_spec (length atr) (end_of gs)) as [|L1]; [unfold fails; lia|].
  assert (C : closed gs = true).
  { destruct (closed gs) eqn:C; [reflexivity|]. exfalso. apply Ntd. rewrite Ea. eapply open_td4; eauto. lia. }
  destruct (visit_groups _ _ _ V C) as (G & Lg).
  destruct (Nat.ltb_spec (length atr) (end_of gs + Z.to_nat (Z.land t0 15))) as [|L2]; [unfold fails; lia|].
  unfold end_of in *. rewrite C in *. rewrite land15 in *. assert (Km : 0 <= t0 mod 16 < 16) by (apply Z.mod_pos_bound; lia).
  destruct (prefix_app _ _ _ _ E) as (e & Etl & _); [lia|].
  set (hist := firstn (Z.to_nat (t0 mod 16)) e). set (rest := skipn (Z.to_nat (t0 mod 16)) e).
  assert (Ee : e = hist ++ rest) by (symmetry; apply firstn_skipn).
  assert (Le : (Z.to_nat (t0 mod 16) <= length e)%nat) by (rewrite Lat, Etl, app_length in L2; lia).
  assert (Lh : Zlen hist = t0 mod 16) by (unfold Zlen, hist; rewrite firstn_length; lia).
  assert (Bh : bytes hist).
  { rewrite Ea in B. apply Forall_inv_tail, Forall_inv_tail in B. rewrite Etl in B. apply bytes_app in B as (_ & B3). unfold hist. apply bytes_firstn; auto. }
  assert (Ebuf : buf = (ts :: t0 :: flat_map goctets gs) ++ hist ++ (rest ++ repeat 0 (33 - length atr))).
  { unfold buf. rewrite Ea at 1. rewrite Etl at 1. rewrite Ee at 1. cbn [app]. rewrite <- !app_assoc. reflexivity. }
  assert (Ei : (1 + length (flat_map goctets gs) + 1)%nat = length (ts :: t0 :: flat_map goctets gs)) by (cbn [length]; lia).
  pose proof (parse_hist_spec _ _ _ (t0 mod 16) buf _ Ebuf Ei Lh Bh) as P.
  destruct (parse_hist buf _ (t0 mod 16)) as [[er|(((t1, h), st), next)]| |]; cbn [ebind bind]; try contradiction.
  - lia.
  - destruct P as (Hv & En & Hs & Hn).
    assert (Ln : next = (2 + length (flat_map goctets gs) + length hist)%nat) by lia.
    destruct (Nat.ltb_spec (length atr) next) as [|L3]; [unfold fails; lia|].
    destruct (status_fields st) as ((lcs, sw1), sw2) eqn:Est.
    destruct tck.
    + destruct (Nat.leb_spec (length atr) next) as [|L4]; [unfold fails, ebind; cbn [bind]; lia|].
      assert (Er : exists c rest', rest = c :: rest').
      { destruct rest as [|c rest'] eqn:Er; [|eauto]. exfalso. rewrite Lat, Etl, Ee in L4. cbn [length] in L4. rewrite !app_length in L4. cbn [length] in L4. lia. }
      destruct Er as (c & rest' & Er). rewrite Er in *.
      assert (E1 : rd buf next = Ret c).
      { rewrite Ebuf. replace ((ts :: t0 :: flat_map goctets gs) ++ hist ++ (c :: rest') ++ repeat 0 (33 - length atr)) with
          (((ts :: t0 :: flat_map goctets gs) ++ hist) ++ c :: rest' ++ repeat 0 (33 - length atr)) by (rewrite <- !app_assoc; reflexivity).
        apply rd_app_mid. rewrite app_length. cbn [length]. lia. }
      assert (E2 : sub buf 1 next = Ret (t0 :: flat_map goctets gs ++ hist ++ [c])).
      { rewrite Ebuf. replace ((ts :: t0 :: flat_map goctets gs) ++ hist ++ (c :: rest') ++ repeat 0 (33 - length atr)) with
          ([ts] ++ (t0 :: flat_map goctets gs ++ hist ++ [c]) ++ rest' ++ repeat 0 (33 - length atr)) by (cbn [app]; rewrite <- !app_assoc; reflexivity).
        apply sub_app; [reflexivity|]. cbn [length]. rewrite !app_length. cbn [length]. lia. }
      rewrite E1. cbn [bind]. rewrite E2. cbn [bind]. rewrite xors_fold. rewrite Z.lxor_0_l.
      destruct (Z.eqb_spec (xors (t0 :: flat_map goctets gs ++ hist ++ [c])) 0) as [X|X]; unfold fails, gives, ebind; cbn [bind]; [|lia].
      exists ts, t0, gs, hist, [c], rest'. cbn [i_params i_ptrs i_atr i_GT i_CGT i_WT i_CWT i_BWT i_status i_LCS i_SW1 i_SW2].
      split; [split; [rewrite Ea, Etl, Ee; reflexivity|auto]|]. repeat (split; [auto; fail|]).
      split; [left; split; [apply needs_spec; auto|]; exists c; split; [reflexivity|exact X]|]. repeat (split; [auto; fail|]). exact Est.
    + unfold gives, ebind; cbn [bind]. exists ts, t0, gs, hist, [], rest. cbn [i_params i_ptrs i_atr i_GT i_CGT i_WT i_CWT i_BWT i_status i_LCS i_SW1 i_SW2].
      split; [split; [rewrite Ea, Etl, Ee; reflexivity|auto]|]. repeat (split; [auto; fail|]).
      split; [right; split; [rewrite <- needs_spec, <- Et; discriminate|reflexivity]|]. repeat (split; [auto; fail|]). exact Est.
  - destruct P as (l & El & Ll). exists ts, t0, gs, l, rest. rewrite El in *. split; [rewrite Ea, Etl, Ee; reflexivity|]. auto 8.
Qed.

Lemma atr_start atr ts t0 gs r : bytes atr -> (length atr <= 33)%nat -> atr = ts :: t0 :: flat_map goctets gs ++ r ->
  groups t0 gs -> (length gs <= 4)%nat -> good_ts ts -> iso_valid gs ->
  exists tck p, tck = existsb needs gs /\
    atr_parse atr = finish atr (atr ++ repeat 0 (33 - length atr)) ts t0 (2 + length (flat_map goctets gs)) tck p (places 1 gs).
Proof.
  intros B L Ea G Lg Gt Vi. destruct (groups_visit _ _ G 4 Lg) as (V & C).
  assert (Bg : bytes (flat_map goctets gs)) by (rewrite Ea in B; apply Forall_inv_tail, Forall_inv_tail, bytes_app in B; tauto).
  destruct (run_bwd t0 gs V Bg Vi) as ((tck, p) & Er). destruct (run_fwd t0 gs tck p V Bg Er) as (_ & Et & _).
  exists tck, p. split; [exact Et|].
  pose proof (atr_unfold ts t0 (flat_map goctets gs ++ r) gs (r ++ repeat 0 (33 - length atr))) as U. cbn zeta in U. rewrite <- Ea in U.
  rewrite U; auto; [|rewrite <- app_assoc; reflexivity].
  replace (negb (ts =? 0x3B) && negb (ts =? 0x3F)) with false by (destruct Gt as [->| ->]; reflexivity).
  rewrite Er. unfold gives at 1. cbn [ebind bind]. unfold end_of. rewrite C.
  replace (1 + length (flat_map goctets gs) + 1)%nat with (2 + length (flat_map goctets gs))%nat by lia. reflexivity.
Qed.
Lemma atr_complete atr ts t0 gs hist tck rest : bytes atr -> (length atr <= 33)%nat -> layout atr ts t0 gs hist tck rest ->
  (length gs <= 4)%nat -> good_ts ts -> iso_valid gs -> hist_valid ne hist -> tck_valid t0 gs hist tck -> exists x, atr_parse atr = gives x.
Proof.
  intros B L (Ea & G & Lh) Lg Gt Vi Vh Vt. destruct (atr_start atr ts t0 gs _ B L Ea G Lg Gt Vi) as (tk & p & Et & ->).
  unfold finish. destruct (compute_gt p) as (gt, cgt). destruct (compute_wt p) as ((wt, cwt), bwt). rewrite land15.
  assert (Km : 0 <= t0 mod 16 < 16) by (apply Z.mod_pos_bound; lia).
  assert (Lat : length atr = (2 + length (flat_map goctets gs) + length hist + length tck + length rest)%nat).
  { rewrite Ea. cbn [length]. rewrite !app_length. lia. }
  assert (Lz : Z.to_nat (t0 mod 16) = length hist) by (unfold Zlen in Lh; lia). rewrite Lz.
  destruct (Nat.ltb_spec (length atr) (2 + length (flat_map goctets gs))); [lia|].
  destruct (Nat.ltb_spec (length atr) (2 + length (flat_map goctets gs) + length hist)); [lia|].
  assert (Bh : bytes hist) by (rewrite Ea in B; apply Forall_inv_tail, Forall_inv_tail in B; rewrite !bytes_app in B; tauto).
  set (buf := atr ++ repeat 0 (33 - length atr)).
  assert (Ebuf : buf = (ts :: t0 :: flat_map goctets gs) ++ hist ++ (tck ++ rest ++ repeat 0 (33 - length atr))).
  { unfold buf. rewrite Ea at 1. cbn [app]. rewrite <- !app_assoc. reflexivity. }
  assert (Ei : (2 + length (flat_map goctets gs))%nat = length (ts :: t0 :: flat_map goctets gs)) by (cbn [length]; lia).
  pose proof (parse_hist_spec _ _ _ (t0 mod 16) buf _ Ebuf Ei Lh Bh) as P.
  destruct (parse_hist buf _ (t0 mod 16)) as [[er|(((t1, h), st), next)]| |]; cbn [ebind bind]; try tauto.
  - destruct P as (_ & En & _ & _). destruct (Nat.ltb_spec (length atr) next); [lia|].
    destruct (status_fields st) as ((lcs, sw1), sw2). destruct Vt as [(Rq & c & -> & X)|(Rq & ->)].
    + apply needs_spec in Rq. rewrite Rq in Et. subst tk. cbn [length] in Lat. destruct (Nat.leb_spec (length atr) next); [lia|].
      assert (E1 : rd buf next = Ret c).
      { rewrite Ebuf. replace ((ts :: t0 :: flat_map goctets gs) ++ hist ++ [c] ++ rest ++ repeat 0 (33 - length atr)) with
          (((ts :: t0 :: flat_map goctets gs) ++ hist) ++ c :: rest ++ repeat 0 (33 - length atr)) by (rewrite <- !app_assoc; reflexivity).
        apply rd_app_mid. rewrite app_length. cbn [length]. lia. }
      assert (E2 : sub buf 1 next = Ret (t0 :: flat_map goctets gs ++ hist ++ [c])).
      { rewrite Ebuf. replace ((ts :: t0 :: flat_map goctets gs) ++ hist ++ [c] ++ rest ++ repeat 0 (33 - length atr)) with
          ([ts] ++ (t0 :: flat_map goctets gs ++ hist ++ [c]) ++ rest ++ repeat 0 (33 - length atr)) by (cbn [app]; rewrite <- !app_assoc; reflexivity).
        apply sub_app; [reflexivity|]. cbn [length]. rewrite !app_length. cbn [length]. lia. }
      rewrite E1. cbn [bind]. rewrite E2. cbn [bind]. rewrite xors_fold, Z.lxor_0_l, X. unfold gives, ebind. cbn. eauto.
    + assert (existsb needs gs = false) as F by (destruct (existsb needs gs) eqn:F; [exfalso; apply Rq; apply needs_spec; exact F|reflexivity]).
      rewrite F in Et. subst tk. unfold gives, ebind. cbn. eauto.
  - destruct P as (l & -> & Ll). exfalso. cbn in Vh. destruct Vh as (o & si & -> & Ls & _). rewrite app_length in Ll. lia.
Qed.
Lemma parse_hist_ub a l r K buf idx : buf = a ++ (0 :: l) ++ r -> idx = length a -> Zlen (0 :: l) = K -> (length l < 3)%nat -> parse_hist buf idx K = UB.
Proof.
  intros -> -> <- L. unfold parse_hist, Zlen. cbn [length app].
  destruct (Z.eqb_spec (Z.of_nat (S (length l))) 0); [lia|].
  rewrite rd_app_mid by reflexivity. cbn [bind]. rewrite Nat2Z.id. cbn [Nat.sub]. rewrite Nat.sub_0_r.
  destruct (Nat.ltb_spec (length l) 3); [reflexivity|lia].
Qed.
Lemma atr_ub atr ts t0 gs l rest : bytes atr -> (length atr <= 33)%nat -> atr = ts :: t0 :: flat_map goctets gs ++ (0 :: l) ++ rest ->
  good_ts ts -> groups t0 gs -> (length gs <= 4)%nat -> Zlen (0 :: l) = t0 mod 16 -> iso_valid gs -> (length l < 3)%nat -> atr_parse atr = UB.
Proof.
  intros B L Ea Gt G Lg Lh Vi Ll. destruct (atr_start atr ts t0 gs _ B L Ea G Lg Gt Vi) as (tk & p & Et & ->).
  unfold finish. destruct (compute_gt p) as (gt, cgt). destruct (compute_wt p) as ((wt, cwt), bwt). rewrite land15.
  assert (Km : 0 <= t0 mod 16 < 16) by (apply Z.mod_pos_bound; lia).
  assert (Lat : length atr = (2 + length (flat_map goctets gs) + length (0%Z :: l) + length rest)%nat).
  { rewrite Ea. cbn [length]. rewrite !app_length. cbn [length]. lia. }
  assert (Lz : Z.to_nat (t0 mod 16) = length (0%Z :: l)) by (unfold Zlen in Lh; lia). rewrite Lz.
  destruct (Nat.ltb_spec (length atr) (2 + length (flat_map goctets gs))); [lia|].
  destruct (Nat.ltb_spec (length atr) (2 + length (flat_map goctets gs) + length (0%Z :: l))); [lia|].
  assert (Bh : bytes (0 :: l)) by (rewrite Ea in B; apply Forall_inv_tail, Forall_inv_tail in B; rewrite !bytes_app in B; tauto).
  set (buf := atr ++ repeat 0 (33 - length atr)).
  assert (Ebuf : buf = (ts :: t0 :: flat_map goctets gs) ++ (0 :: l) ++ (rest ++ repeat 0 (33 - length atr))).
  { unfold buf. rewrite Ea at 1. cbn [app]. rewrite <- !app_assoc. cbn [app]. rewrite <- ?app_assoc. reflexivity. }
  assert (Ei : (2 + length (flat_map goctets gs))%nat = length (ts :: t0 :: flat_map goctets gs)) by (cbn [length]; lia).
  rewrite (parse_hist_ub _ _ _ (t0 mod 16) buf _ Ebuf Ei Lh Ll). reflexivity.
Qed.

(** ** The pointers *)
Lemma places_spec gs : forall y pre r buf idx k, groups y gs -> buf = pre ++ y :: flat_map goctets gs ++ r -> idx = length pre ->
  let at_k f := match nth_error (places idx gs) k with Some t => match f t with None => Ret None | Some j => let* b := rd buf j in Ret (Some b) end | None => Ret None end in
  let of_k (h : group -> option Z) := match nth_error gs k with Some g => h g | None => None end in
  at_k t_A = Ret (of_k gA) /\ at_k t_B = Ret (of_k gB) /\ at_k t_C = Ret (of_k gC) /\ at_k t_D = Ret (of_k gD).
Proof.
  induction gs as [|g gs IH]; intros y pre r buf idx k G Eb Ei at_k of_k; [inversion G|]. subst at_k of_k. cbn beta.
  destruct k as [|k]; cbn [nth_error places].
  - cbn [t_A t_B t_C t_D]. cbn [flat_map] in Eb. unfold goctets at 1 in Eb. rewrite <- !app_assoc in Eb.
    assert (Q : forall o pre' r', buf = pre' ++ oct o ++ r' -> (match at_ o (length pre') with None => Ret None | Some j => let* b := rd buf j in Ret (Some b) end) = Ret o).
    { intros o pre' r' E. destruct o as [b|]; cbn [at_]; [|reflexivity]. rewrite E. cbn [oct app]. rewrite rd_app_mid by reflexivity. reflexivity. }
    repeat split.
    + rewrite <- (Q (gA g) (pre ++ [y]) (oct (gB g) ++ oct (gC g) ++ oct (gD g) ++ flat_map goctets gs ++ r)); [|rewrite Eb, <- app_assoc; reflexivity].
      rewrite app_length. cbn [length]. replace (length pre + 1)%nat with (S idx) by lia. reflexivity.
    + rewrite <- (Q (gB g) (pre ++ [y] ++ oct (gA g)) (oct (gC g) ++ oct (gD g) ++ flat_map goctets gs ++ r)); [|rewrite Eb, <- !app_assoc; reflexivity].
      rewrite !app_length. cbn [length]. replace (length pre + (1 + length (oct (gA g))))%nat with (S idx + length (oct (gA g)))%nat by lia. reflexivity.
    + rewrite <- (Q (gC g) (pre ++ [y] ++ oct (gA g) ++ oct (gB g)) (oct (gD g) ++ flat_map goctets gs ++ r)); [|rewrite Eb, <- !app_assoc; reflexivity].
      rewrite !app_length. cbn [length]. replace (length pre + (1 + (length (oct (gA g)) + length (oct (gB g)))))%nat with (S idx + length (oct (gA g)) + length (oct (gB g)))%nat by lia. reflexivity.
    + rewrite <- (Q (gD g) (pre ++ [y] ++ oct (gA g) ++ oct (gB g) ++ oct (gC g)) (flat_map goctets gs ++ r)); [|rewrite Eb, <- !app_assoc; reflexivity].
      rewrite !app_length. cbn [length]. replace (length pre + (1 + (length (oct (gA g)) + (length (oct (gB g)) + length (oct (gC g))))))%nat with (S idx + length (oct (gA g)) + length (oct (gB g)) + length (oct (gC g)))%nat by lia. reflexivity.
  - inversion G as [? ? M D|? ? t ? M D G']; subst.
    + rewrite D. destruct k; cbn; auto.
    + rewrite D. cbn [flat_map]. unfold goctets at 1 3 5 7. rewrite D. cbn [oct]. 
      apply (IH t (pre ++ [y] ++ oct (gA g) ++ oct (gB g) ++ oct (gC g)) r _ _ k G').
      * rewrite <- !app_assoc. reflexivity.
      * rewrite !app_length. cbn [length]. lia.
Qed.

(** ** Timing *)
Lemma table8_range k d : In (k, d) table8 -> 1 <= d <= 64.
Proof. intro H. cbn in H. repeat (destruct H as [H|H]; [injection H as <- <-; lia|]). destruct H. Qed.
Lemma table7_range k f m : In (k, (f, m)) table7 -> 372 <= f <= 2048.
Proof. intro H. cbn in H. repeat (destruct H as [H|H]; [injection H as <- <- <-; lia|]). destruct H. Qed.
Lemma u32_id z : 0 <= z < 4294967296 -> u32 z = z.
Proof. intro H. unfold u32. apply Z.mod_small. exact H. Qed.

Lemma byte_of_byte f i gs : (forall g, In g gs -> forall b, f g = Some b -> is_byte b) -> forall b, byte_of f i gs = Some b -> is_byte b.
Proof. intros H b E. unfold byte_of in E. destruct (nth_error gs (i - 1)) as [g|] eqn:N; [|discriminate]. eapply H; eauto. eapply nth_error_In; eauto. Qed.
Lemma group_bytes gs : bytes (flat_map goctets gs) -> forall g, In g gs ->
  (forall b, gA g = Some b -> is_byte b) /\ (forall b, gB g = Some b -> is_byte b) /\ (forall b, gC g = Some b -> is_byte b) /\ (forall b, gD g = Some b -> is_byte b).
Proof.
  intros B g Hg. unfold bytes in B. rewrite Forall_forall in B.
  assert (Q : forall b, In b (goctets g) -> is_byte b) by (intros b Hb; apply B, in_flat_map; eauto).
  unfold goctets in Q. split; [|split; [|split]]; intros b E; apply Q; rewrite E; cbn [oct]; rewrite !in_app_iff; cbn; tauto.
Qed.
Lemma tagged_In prev gs : forall t g, In (t, g) (tagged prev gs) -> In g gs.
Proof.
  revert prev; induction gs as [|h gs IH]; intros prev t g H; cbn in H; [destruct H|].
  destruct prev; [|destruct H]. destruct H as [E|H]; [injection E as _ <-; left; reflexivity|right; eauto].
Qed.
Lemma specific_In gs t g : In (t, g) (specific gs) -> In g gs.
Proof. destruct gs as [|g1 [|g2 gs]]; cbn; try tauto. intro H. apply tagged_In in H. auto. Qed.
Lemma first_for_In f t l b : first_for f t l = Some b -> exists g, In (t, g) l /\ f g = Some b.
Proof.
  induction l as [|(u, g) l IH]; cbn; [discriminate|]. destruct (Z.eqb_spec u t) as [->|N].
  - destruct (f g) eqn:E; [intros [= <-]; eauto|]. intro H. apply IH in H as (g' & ? & ?). eauto.
  - intro H. apply IH in H as (g' & ? & ?). eauto.
Qed.
Lemma par_TB_range gs : iso_valid gs -> bytes (flat_map goctets gs) -> 0 <= par_TB gs / 16 <= 9 /\ 0 <= par_TB gs mod 16 < 16.
Proof.
  intros V B. split; [|apply Z.mod_pos_bound; lia]. unfold par_TB. destruct (first_for gB 1 (specific gs)) as [b|] eqn:E; cbn [dflt].
  - apply first_for_In in E as (g & I & E). destruct V as (_ & _ & _ & _ & _ & _ & V). destruct (V 1 g I) as (_ & V2). specialize (V2 b E eq_refl).
    destruct (group_bytes gs B g (specific_In _ _ _ I)) as (_ & Q & _). specialize (Q b E). unfold is_byte in Q. split; [apply Z.div_pos; lia|exact V2].
  - cbn. lia.
Qed.
Lemma timing gs x : params_ok gs (i_params x) -> compute_gt (i_params x) = (i_GT x, i_CGT x) -> compute_wt (i_params x) = (i_WT x, i_CWT x, i_BWT x) ->
  iso_valid gs -> bytes (flat_map goctets gs) ->
  (forall c, byte_of gC 2 gs = Some c -> is_byte c) -> (forall c, byte_of gC 1 gs = Some c -> is_byte c) ->
  exists Fi Di, is_rate gs Fi Di /\ p_Fi (i_params x) = Fi /\ p_Di (i_params x) = Di /\
    i_GT x = guard_time gs /\ i_CGT x = char_guard_time gs /\ i_WT x = waiting_time gs Di /\
    (one_T1 gs -> i_CWT x = char_waiting_time gs /\ p_IFSI (i_params x) = par_IFSI gs /\ p_edc (i_params x) = par_EDC gs /\
      (2 ^ (par_TB gs / 16) * Di <= 12026 -> i_BWT x = block_waiting_time gs Fi Di)).
Proof.
  intros (Pr & PN & PT & PW & PI & PC & PB & PE) G W V B B2 B1. exists (p_Fi (i_params x)), (p_Di (i_params x)).
  assert (Ra := Pr). destruct Ra as ((fm & R1) & R2). apply table7_range in R1. apply table8_range in R2.
  unfold compute_gt in G. unfold compute_wt in W. rewrite PN, PT in G. rewrite PW, PC, PB in W.
  assert (N1 : 0 <= par_N gs < 256). { unfold par_N. destruct (byte_of gC 1 gs) eqn:E; cbn [dflt]; [apply (B1 z eq_refl)|lia]. }
  assert (W1 : 0 <= par_WI gs < 256). { unfold par_WI. destruct (byte_of gC 2 gs) eqn:E; cbn [dflt]; [apply (B2 z eq_refl)|lia]. }
  split; [exact Pr|]. split; [reflexivity|]. split; [reflexivity|].
  injection W as W2 W3 W4.
  assert (T : par_T gs = 0 \/ par_T gs = 1).
  { unfold par_T. destruct (byte_of gD 1 gs) as [d|] eqn:E; cbn [dflt]; [|left; reflexivity]. destruct V as (_ & _ & V & _). exact (V d E). }
  split; [|split; [|split; [|intro O]]].
  - unfold guard_time. destruct (Z.eqb_spec (par_N gs) 255) as [EN|EN]; cbn [negb] in G; injection G as <- _.
    + destruct T as [-> | ->]; reflexivity.
    + apply u32_id. lia.
  - unfold char_guard_time. destruct (Z.eqb_spec (par_N gs) 255) as [EN|EN]; cbn [negb] in G; injection G as _ <-; [reflexivity|apply u32_id; lia].
  - rewrite <- W2. unfold waiting_time. apply u32_id. nia.
  - assert (EB : dflt (last_for gB 1 (specific gs)) 0x4D = par_TB gs) by (unfold par_TB; rewrite (first_last gB _ O); reflexivity).
    rewrite EB in *. destruct (par_TB_range gs V B) as (H1 & H2). rewrite !Z.shiftl_1_l in *.
    assert (P1 : 2 ^ (par_TB gs mod 16) <= 2 ^ 15) by (apply Z.pow_le_mono_r; lia). assert (0 < 2 ^ (par_TB gs mod 16)) by (apply Z.pow_pos_nonneg; lia).
    change (2 ^ 15) with 32768 in P1.
    split; [rewrite <- W3; unfold char_waiting_time; apply u32_id; lia|].
    split; [rewrite PI; unfold par_IFSI; rewrite (first_last gA _ O); reflexivity|].
    split; [rewrite PE; unfold par_EDC; rewrite (first_last gC _ O); reflexivity|].
    intro Hb. rewrite <- W4. unfold block_waiting_time. assert (0 < 2 ^ (par_TB gs / 16)) by (apply Z.pow_pos_nonneg; lia).
    assert (M : 0 <= 2 ^ (par_TB gs / 16) * 960 * 372 * p_Di (i_params x) < 4294967296) by nia.
    rewrite (u32_id (2 ^ _ * 960 * 372 * _)) by exact M. apply u32_id.
    assert (0 <= 2 ^ (par_TB gs / 16) * 960 * 372 * p_Di (i_params x) / p_Fi (i_params x) <= 4294967295 / 372); [|change (4294967295 / 372) with 11545611 in *; lia].
    split; [apply Z.div_pos; lia|]. transitivity (4294967295 / p_Fi (i_params x)); [apply Z.div_le_mono; lia|apply Z.div_le_compat_l; lia].
Qed.

(** ** EMV *)
Definition deref_all gs x := forall i, (1 <= i)%nat ->
  deref t_A i x = Ret (byte_of gA i gs) /\ deref t_B i x = Ret (byte_of gB i gs) /\ deref t_C i x = Ret (byte_of gC i gs) /\ deref t_D i x = Ret (byte_of gD i gs).
Lemma deref_ok atr ts t0 gs r x : atr = ts :: t0 :: flat_map goctets gs ++ r -> groups t0 gs -> i_ptrs x = places 1 gs -> i_atr x = atr ++ repeat 0 (33 - length atr) -> deref_all gs x.
Proof.
  intros Ea G Ep Eat i Hi.
  assert (Eb : i_atr x = [ts] ++ t0 :: flat_map goctets gs ++ (r ++ repeat 0 (33 - length atr))).
  { rewrite Eat. rewrite Ea at 1. cbn [app]. rewrite <- app_assoc. reflexivity. }
  destruct (places_spec gs t0 [ts] _ (i_atr x) 1%nat (i - 1)%nat G Eb eq_refl) as (H1 & H2 & H3 & H4).
  unfold deref, ptr, byte_of. rewrite Ep. 
  destruct (nth_error (places 1 gs) (i - 1)); auto.
Qed.

Lemma hi0 a : is_byte a -> (Z.land a 0xF0 =? 0) = (a / 16 =? 0).
Proof. intro H. assert (F : forallb (fun a => Bool.eqb (Z.land a 0xF0 =? 0) (a / 16 =? 0)) all_bytes = true) by (vm_compute; reflexivity).
  rewrite forallb_forall in F. apply Bool.eqb_prop, F, all_bytes_In, H. Qed.
Lemma hi_shift b : is_byte b -> Z.shiftr (Z.land b 0xF0) 4 = b / 16.
Proof. intro H. assert (F : forallb (fun b => Z.shiftr (Z.land b 0xF0) 4 =? b / 16) all_bytes = true) by (vm_compute; reflexivity).
  rewrite forallb_forall in F. apply Z.eqb_eq, F, all_bytes_In, H. Qed.

Lemma if_ret (c : bool) (e : Z) k : e <> 0 -> (if c then Ret e else k) = Ret 0 <-> c = false /\ k = Ret 0.
Proof. intro N. destruct c; split; [intros [= ->]; congruence|intros (? & _); discriminate|auto|tauto]. Qed.
Lemma if_two (c : bool) (e : Z) k : (k = Ret 0 \/ k = Ret e) -> ((if c then Ret e else k) = Ret 0 \/ (if c then Ret e else k) = Ret e).
Proof. destruct c; auto. Qed.
Lemma card_error_nz : CARD_ERROR <> 0. Proof. discriminate. Qed.
Lemma rate_emv a : is_byte a -> (exists f, In (a / 16, f) table7) -> (exists d, In (a mod 16, d) table8) ->
  ((a / 16 =? 0) || (a mod 16 <? 3) = false <-> (exists fi fm, In (a / 16, (fi, fm)) table7 /\ 50 <= fm) /\ exists d, In (a mod 16, d) table8 /\ 4 <= d).
Proof.
  intros Ha Ef Ed.
  set (e7 := fun a => existsb (fun p => fst p =? a / 16) table7). set (e8 := fun a => existsb (fun p => fst p =? a mod 16) table8).
  set (q7 := fun a => existsb (fun p : Z * (Z * Z) => (fst p =? a / 16) && (50 <=? snd (snd p))) table7).
  set (q8 := fun a => existsb (fun p : Z * Z => (fst p =? a mod 16) && (4 <=? snd p)) table8).
  assert (S : forallb (fun a => implb (e7 a && e8 a) (Bool.eqb (negb ((a / 16 =? 0) || (a mod 16 <? 3))) (q7 a && q8 a))) all_bytes = true) by (vm_compute; reflexivity).
  rewrite forallb_forall in S. specialize (S a (all_bytes_In a Ha)).
  assert (H7 : e7 a = true). { destruct Ef as (f & I). apply existsb_exists. exists (a / 16, f). split; [exact I|apply Z.eqb_refl]. }
  assert (H8 : e8 a = true). { destruct Ed as (f & I). apply existsb_exists. exists (a mod 16, f). split; [exact I|apply Z.eqb_refl]. }
  rewrite H7, H8 in S. cbn [andb implb] in S. apply Bool.eqb_prop in S.
  assert (Q7 : q7 a = true <-> exists fi fm, In (a / 16, (fi, fm)) table7 /\ 50 <= fm).
  { unfold q7. rewrite existsb_exists. split.
    - intros ((k, (fi, fm)) & I & K). apply andb_true_iff in K as (K1 & K2). cbn [fst snd] in *. apply Z.eqb_eq in K1. apply Z.leb_le in K2. subst k. eauto.
    - intros (fi & fm & I & K). exists (a / 16, (fi, fm)). split; [exact I|]. cbn [fst snd]. rewrite Z.eqb_refl. apply Z.leb_le, K. }
  assert (Q8 : q8 a = true <-> exists d, In (a mod 16, d) table8 /\ 4 <= d).
  { unfold q8. rewrite existsb_exists. split.
    - intros ((k, d) & I & K). apply andb_true_iff in K as (K1 & K2). cbn [fst snd] in *. apply Z.eqb_eq in K1. apply Z.leb_le in K2. subst k. eauto.
    - intros (d & I & K). exists (a mod 16, d). split; [exact I|]. cbn [fst snd]. rewrite Z.eqb_refl. apply Z.leb_le, K. }
  rewrite <- Q7, <- Q8, <- andb_true_iff, <- S. symmetry. apply negb_true_iff.
Qed.

Lemma emv_core atr x gs : length atr <> 0%nat -> atr_parse atr = gives x -> deref_all gs x -> iso_valid gs -> params_ok gs (i_params x) -> bytes (flat_map goctets gs) ->
  (emv_atr_parse atr = Ret 0 <-> emv_rules gs) /\ (emv_atr_parse atr = Ret 0 \/ emv_atr_parse atr = Ret CARD_ERROR).
Proof.
  intros N0 E D V P B. pose proof (group_bytes gs B) as Gb.
  assert (BA : forall i b, byte_of gA i gs = Some b -> is_byte b) by (intros i; apply byte_of_byte; intros g Hg; apply (Gb g Hg)).
  assert (BB : forall i b, byte_of gB i gs = Some b -> is_byte b) by (intros i; apply byte_of_byte; intros g Hg; apply (Gb g Hg)).
  assert (BC : forall i b, byte_of gC i gs = Some b -> is_byte b) by (intros i; apply byte_of_byte; intros g Hg; apply (Gb g Hg)).
  destruct (D 1%nat ltac:(lia)) as (DA1 & _ & DC1 & DD1). destruct (D 2%nat ltac:(lia)) as (DA2 & _ & DC2 & DD2). destruct (D 3%nat ltac:(lia)) as (DA3 & DB3 & DC3 & _).
  unfold emv_atr_parse. destruct (Nat.eqb_spec (length atr) 0) as [|_]; [contradiction|]. rewrite E. unfold gives. cbn [bind].
  rewrite DA1, DC1, DD1, DA2, DC2, DD2, DA3, DB3, DC3. cbn [bind].
  destruct P as (_ & PN & _ & _ & _ & PC & _). rewrite PN.
  destruct V as (V1 & _ & V3 & _ & _ & V6 & V7).
  unfold emv_rules. cbn zeta. unfold par_N.
  assert (U0 : forall z, 0 <= u32 z) by (intro z; unfold u32; apply Z.mod_pos_bound; lia).
  specialize (BA 1%nat) as BA1. specialize (BA 3%nat) as BA3. specialize (BB 3%nat) as BB3. specialize (BC 1%nat) as BC1.
  assert (V8 : forall d, byte_of gD 2 gs = Some d -> prot d = 1 -> forall a, byte_of gA 3 gs = Some a -> a <= 254).
  { intros d Hd Hp a Ha. unfold byte_of in Hd, Ha. cbn [Nat.sub] in *. destruct gs as [|g1 [|g2 [|g3 gs]]]; cbn [nth_error] in *; try discriminate.
    apply (V7 1 g3); auto. cbn [specific tagged]. rewrite Hd, Hp. left. reflexivity. }
  assert (T2 : forall a, byte_of gA 2 gs = Some a -> (Z.land a 0x10 =? 0) = negb (Z.testbit a 4)) by (intros a _; apply (land_bit a 4); lia).
  assert (R2 : forall a, byte_of gA 1 gs = Some a -> ((Z.land a 0xF0 =? 0) || (Z.land a 0x0F <? 3) = false <->
      (exists fi fm, In (a / 16, (fi, fm)) table7 /\ 50 <= fm) /\ exists d, In (a mod 16, d) table8 /\ 4 <= d)).
  { intros a Ha. rewrite hi0, land15 by (apply BA1; exact Ha). destruct (V1 a Ha). apply rate_emv; auto. }
  assert (Ebit : forall k, (k <? 0) = false \/ k < 0) by (intro k; destruct (Z.ltb_spec k 0); auto).
  clear DA1 DC1 DD1 DA2 DC2 DD2 DA3 DB3 DC3 D E V1 V7 Gb BA BB BC.
  set (oA1 := byte_of gA 1 gs) in *. set (oA2 := byte_of gA 2 gs) in *. set (oA3 := byte_of gA 3 gs) in *.
  set (oC1 := byte_of gC 1 gs) in *. set (oC2 := byte_of gC 2 gs) in *. set (oC3 := byte_of gC 3 gs) in *.
  set (oD1 := byte_of gD 1 gs) in *. set (oD2 := byte_of gD 2 gs) in *. set (oB3 := byte_of gB 3 gs) in *.
  clearbody oA1 oA2 oA3 oC1 oC2 oC3 oD1 oD2 oB3.
  assert (W : (if match oD1 with Some d => 1 <? Z.land d 15 | None => false end then true else false) = false).
  { destruct oD1 as [d|]; [|reflexivity]. rewrite land15. fold (prot d). destruct (V3 d eq_refl) as [-> | ->]; reflexivity. }
  assert (Et : match oD1 with Some d => Z.land d 15 | None => 0 end = prot (dflt oD1 0)).
  { destruct oD1 as [d|]; cbn [dflt]; [apply land15|reflexivity]. }
  assert (Tt : prot (dflt oD1 0) = 0 \/ prot (dflt oD1 0) = 1).
  { destruct oD1 as [d|]; cbn [dflt]; [exact (V3 d eq_refl)|left; reflexivity]. }
  rewrite !Et. set (t1 := prot (dflt oD1 0)) in *.
  destruct (match oD1 with Some d => 1 <? Z.land d 15 | None => false end); [discriminate W|]. clear W.
  split.
  2: { apply if_two, if_two, if_two, if_two, if_two. destruct (_ =? 1); [|auto]. apply if_two. destruct oB3; [|auto]. apply if_two, if_two, if_two.
       destruct oC3; [|auto]. destruct (_ =? 0); auto. }
  rewrite !if_ret by exact card_error_nz.
  assert (Q1 : (match oA2 with Some a => negb (Z.land a 15 =? t1) || negb (Z.land a 16 =? 0) | None => false end = false <->
    forall a, oA2 = Some a -> prot a = t1 /\ Z.testbit a 4 = false)).
  { destruct oA2 as [a|]; [|split; [discriminate|reflexivity]]. rewrite (T2 a eq_refl), land15. fold (prot a). rewrite negb_involutive, orb_false_iff.
    destruct (Z.eqb_spec (prot a) t1); split; [intros (_ & H) ? [= <-]; auto|intro H; destruct (H a eq_refl); auto|intros (? & _); discriminate|intro H; destruct (H a eq_refl); contradiction]. }
  assert (Q2 : (forall a, oA2 = Some a -> Z.testbit a 4 = false) ->
    (match oA1 with Some a => match oA2 with Some b => (Z.land b 16 =? 0) && ((a <? 17) || (19 <? a)) | None => (Z.land a 240 =? 0) || (Z.land a 15 <? 3) end | None => false end = false <->
     (forall a, oA1 = Some a -> oA2 <> None -> 17 <= a <= 19) /\
     (forall a, oA1 = Some a -> oA2 = None -> (exists fi fm, In (a / 16, (fi, fm)) table7 /\ 50 <= fm) /\ exists d, In (a mod 16, d) table8 /\ 4 <= d))).
  { intro H5. destruct oA1 as [a|]; [|split; [split; discriminate|reflexivity]]. destruct oA2 as [b|].
    - rewrite (T2 b eq_refl), (H5 b eq_refl). cbn [negb andb]. rewrite orb_false_iff, Z.ltb_ge, Z.ltb_ge. split.
      + intros H. split; [intros ? [= <-] _; lia|discriminate].
      + intros (H & _). specialize (H a eq_refl). assert (17 <= a <= 19) by (apply H; discriminate). lia.
    - rewrite (R2 a eq_refl). split; [intro H; split; [congruence|intros ? [= <-] _; exact H]|intros (_ & H); apply H; reflexivity]. }
  assert (Q3 : match oC1 with Some c => negb (c =? 0) && negb (c =? 255) | None => false end = false <-> forall c, oC1 = Some c -> c = 0 \/ c = 255).
  { destruct oC1 as [c|]; [|split; [discriminate|reflexivity]]. split.
    - intros H ? [= <-]. destruct (Z.eqb_spec c 0), (Z.eqb_spec c 255); cbn in H; auto; discriminate.
    - intro H. destruct (H c eq_refl) as [-> | ->]; reflexivity. }
  assert (Q4 : match oC2 with Some c => negb (t1 =? 0) || negb (c =? 10) | None => false end = false <-> forall c, oC2 = Some c -> t1 = 0 /\ c = 10).
  { destruct oC2 as [c|]; [|split; [discriminate|reflexivity]]. rewrite orb_false_iff, !negb_false_iff, !Z.eqb_eq. split; [intros H ? [= <-]; exact H|intro H; apply H; reflexivity]. }
  assert (Q5 : match oD2 with Some d => (t1 =? 0) && negb (Z.land d 15 =? 15) || (t1 =? 1) && negb (Z.land d 15 =? 1) | None => t1 =? 1 end = false <->
    (forall d, oD2 = Some d -> t1 = 0 -> prot d = 15) /\ (t1 = 1 -> exists d, oD2 = Some d /\ prot d = 1)).
  { destruct oD2 as [d|].
    - rewrite land15. fold (prot d). destruct Tt as [-> | ->]; cbn [Z.eqb Pos.eqb andb orb]; rewrite ?orb_false_r, negb_false_iff, Z.eqb_eq; split.
      + intro H. split; [intros ? [= <-] _; exact H|discriminate].
      + intros (H & _). apply H; reflexivity.
      + intro H. split; [discriminate|eauto].
      + intros (_ & H). destruct (H eq_refl) as (? & [= <-] & ?). assumption.
    - destruct Tt as [-> | ->]; cbn; split; [intros _; split; discriminate|auto|discriminate|intros (_ & H); destruct (H eq_refl) as (? & [=] & _)]. }
  rewrite Q1, Q3, Q4, Q5.
  assert (Q6 : (forall d, oD2 = Some d -> t1 = 0 -> prot d = 15) /\ (t1 = 1 -> exists d, oD2 = Some d /\ prot d = 1) ->
    (match oD2 with Some d => Z.land d 15 | None => 0 end =? 1) = (t1 =? 1)).
  { intros (H1 & H2). destruct Tt as [T0|T1].
    - rewrite T0 in *. destruct oD2 as [d|]; [|reflexivity]. rewrite land15. fold (prot d). rewrite (H1 d eq_refl eq_refl). reflexivity.
    - destruct (H2 T1) as (d & -> & Hd). rewrite land15. fold (prot d). rewrite Hd, T1. reflexivity. }
  assert (Q7 : (forall d, oD2 = Some d -> prot d = 1 -> forall a, oA3 = Some a -> a <= 254)) by exact V8.
  split.
  - intros (H1 & H3 & H5 & H4 & H6 & H7). rewrite (Q6 H6) in H7. destruct H6 as (H6 & H6'). apply Q2 in H1 as (H1 & H2); [|intros a Ha; apply (H5 a Ha)].
    repeat (split; [assumption|]). intro T1. rewrite T1 in H7. cbn [Z.eqb Pos.eqb] in H7. apply if_ret in H7 as (H7 & H8); [|exact card_error_nz].
    destruct oB3 as [b|]; [|discriminate]. rewrite hi_shift in H8 by (apply BB3; reflexivity). rewrite land15 in H8. rewrite !if_ret in H8 by exact card_error_nz. destruct H8 as (H8 & H9 & _ & H10 & _).
    split; [|split].
    + intros a Ha. rewrite Ha in H7. apply Z.ltb_ge in H7. destruct (H6' T1) as (d & Hd & Hp). specialize (Q7 d Hd Hp a Ha). lia.
    + exists b. apply Z.ltb_ge in H8, H9. auto.
    + intros c Hc. rewrite Hc in H10. destruct (Z.eqb_spec c 0); [assumption|discriminate H10].
  - intros (H1 & H2 & H3 & _ & H5 & H4 & H6 & H6' & H7). split; [apply Q2; auto; intros a Ha; apply (H5 a Ha)|]. repeat (split; [tauto|]).
    rewrite Q6 by tauto. destruct Tt as [T0|T1]; [rewrite T0; reflexivity|]. rewrite T1. cbn [Z.eqb Pos.eqb]. destruct (H7 T1) as (H8 & (b & Hb & H9 & H10) & H11).
    rewrite Hb. rewrite hi_shift, land15 by (apply BB3; exact Hb). rewrite !if_ret by exact card_error_nz.
    split; [destruct oA3 as [a|]; [apply Z.ltb_ge, (H8 a eq_refl)|reflexivity]|]. split; [apply Z.ltb_ge; lia|]. split; [apply Z.ltb_ge; lia|].
    split; [|destruct oC3 as [c|]; [rewrite (H11 c eq_refl); auto|auto]].
    apply Z.ltb_ge. destruct oC1 as [c|]; cbn [dflt]; [|cbn; lia]. destruct (H3 c eq_refl) as [-> | ->]; cbn [Z.eqb Pos.eqb negb]; [cbn; lia|apply U0].
Qed.

Lemma matches_unique y g h r s : matches y g -> matches y h -> goctets g ++ r = goctets h ++ s -> g = h /\ r = s.
Proof.
  intros (A1 & B1 & C1 & D1) (A2 & B2 & C2 & D2) E. destruct g as [a b c d], h as [a' b' c' d']. cbn [gA gB gC gD] in *. unfold goctets in E. cbn [gA gB gC gD] in E.
  assert (Q : forall (o o' : option Z) k (P : bool), (o <> None <-> P = true) -> (o' <> None <-> P = true) -> forall r s, oct o ++ r = oct o' ++ s -> k = (0 : Z) -> o = o' /\ r = s).
  { intros o o' k P H1 H2 r0 s0 Eo _. destruct o, o'; cbn in Eo.
    - injection Eo as -> ->. auto.
    - exfalso. apply H2; [apply H1; discriminate|reflexivity].
    - exfalso. apply H1; [apply H2; discriminate|reflexivity].
    - auto. }
  rewrite <- !app_assoc in E. apply (Q _ _ 0 _ A1 A2) in E as (-> & E); [|reflexivity]. apply (Q _ _ 0 _ B1 B2) in E as (-> & E); [|reflexivity].
  apply (Q _ _ 0 _ C1 C2) in E as (-> & E); [|reflexivity]. apply (Q _ _ 0 _ D1 D2) in E as (-> & E); [|reflexivity]. auto.
Qed.
Lemma groups_unique y gs : groups y gs -> forall hs r s, groups y hs -> flat_map goctets gs ++ r = flat_map goctets hs ++ s -> hs = gs.
Proof.
  induction 1 as [y g M D|y g t gs M D G IH]; intros hs r s H E.
  - inversion H as [? h M' D'|? h t' hs' M' D' H']; subst; cbn [flat_map] in E; rewrite <- !app_assoc in E; apply (matches_unique _ _ _ _ _ M M') in E as (-> & E); [reflexivity|congruence].
  - inversion H as [? h M' D'|? h t' hs' M' D' H']; subst; cbn [flat_map] in E; rewrite <- !app_assoc in E; apply (matches_unique _ _ _ _ _ M M') in E as (-> & E); [congruence|].
    assert (t' = t) as -> by congruence. f_equal. eauto.
Qed.

(** ** Also with TD4 *)
Lemma atr_safe atr : bytes atr -> (2 <= length atr <= 33)%nat ->
  match atr_parse atr with NoFuel => False | UB => 1 <= nth 1 atr 0 mod 16 <= 3 | Ret (inl e) => 0 < e | Ret (inr x) => True end.
Proof.
  intros B L. destruct (atr_shape atr L) as (ts & t0 & tl & gs & r & Ea & V & E).
  pose proof (atr_unfold ts t0 tl gs r) as U. cbn zeta in U. rewrite <- Ea in U. rewrite U by (auto; lia). clear U.
  replace (nth 1 atr 0) with t0 by (rewrite Ea; reflexivity).
  destruct (negb (ts =? 0x3B) && negb (ts =? 0x3F)); [unfold fails; lia|].
  pose proof (okm_run gs 1 0 false default_params) as Ok.
  destruct (run 1 0 false default_params gs) as [[e|(tck, p)]| |] eqn:Er; cbn [ebind bind okm] in *; try contradiction; [exact Ok|]. clear Ok Er.
  unfold finish. destruct (compute_gt p) as (gt, cgt). destruct (compute_wt p) as ((wt, cwt), bwt).
  set (buf := atr ++ repeat 0 (33 - length atr)).
  destruct (Nat.ltb_spec (length atr) (end_of gs)) as [|L1]; [unfold fails; lia|].
  destruct (Nat.ltb_spec (length atr) (end_of gs + Z.to_nat (Z.land t0 15))) as [|L2]; [unfold fails; lia|].
  rewrite land15 in *. assert (Km : 0 <= t0 mod 16 < 16) by (apply Z.mod_pos_bound; lia).
  set (i := end_of gs) in *. clearbody i. set (K := t0 mod 16) in *. clearbody K.
  set (hist := firstn (Z.to_nat K) (skipn i atr)).
  assert (Lh : Zlen hist = K) by (unfold Zlen, hist; rewrite firstn_length, skipn_length; lia).
  assert (Bh : bytes hist) by (apply bytes_firstn, bytes_skipn, B).
  assert (Ebuf : buf = firstn i atr ++ hist ++ skipn (Z.to_nat K) (skipn i atr) ++ repeat 0 (33 - length atr)).
  { unfold buf. rewrite <- (firstn_skipn i atr) at 1. rewrite <- (firstn_skipn (Z.to_nat K) (skipn i atr)) at 1. rewrite <- !app_assoc. reflexivity. }
  assert (Ei : i = length (firstn i atr)) by (rewrite firstn_length; lia).
  pose proof (parse_hist_spec _ _ _ K buf _ Ebuf Ei Lh Bh) as P.
  destruct (parse_hist buf i K) as [[er|(((t1, h), st), next)]| |]; cbn [ebind bind]; try contradiction.
  - lia.
  - destruct P as (_ & En & _ & _). destruct (Nat.ltb_spec (length atr) next) as [|L3]; [unfold fails; lia|].
    destruct (status_fields st) as ((lcs, sw1), sw2). destruct tck; [|exact I].
    destruct (Nat.leb_spec (length atr) next) as [|L4]; [unfold fails, ebind; cbn [bind]; lia|].
    assert (Lb : length buf = 33%nat) by (unfold buf; rewrite app_length, repeat_length; lia).
    destruct (rd_total buf next ltac:(lia)) as (c & ->). cbn [bind].
    rewrite sub_Ret by lia. cbn [bind].
    destruct (_ =? 0); unfold fails, gives, ebind; cbn [bind]; lia || exact I.
  - destruct P as (l & El & Ll). rewrite El in Lh. unfold Zlen in Lh. cbn [length] in Lh. lia.
Qed.
Lemma groups_len atr ts t0 gs hist tck rest : layout atr ts t0 gs hist tck rest -> ~ td4 atr -> (length gs <= 4)%nat.
Proof.
  intros (Ea & G & _) N. destruct gs as [|g1 [|g2 [|g3 [|g4 [|g5 gs]]]]]; cbn [length]; try lia. exfalso. apply N.
  inversion G as [|? ? t1 ? M1 D1 G1]; subst. inversion G1 as [|? ? t2 ? M2 D2 G2]; subst. inversion G2 as [|? ? t3 ? M3 D3 G3]; subst. inversion G3 as [|? ? t4 ? M4 D4 G4]; subst.
  cbn [flat_map]. rewrite <- !app_assoc. do 9 eexists. split; [reflexivity|]. repeat (split; [eassumption|]).
  destruct M4 as (_ & _ & _ & M4). apply M4. rewrite D4. discriminate.
Qed.

(** ** The properties *)
Definition accepted (atr : list Z) : Prop := exists x, atr_parse atr = Ret (inr x).
Lemma atr_iff atr : bytes atr -> (length atr <= 33)%nat -> ~ td4 atr ->
  (accepted atr <-> exists ts t0 gs hist tck rest, layout atr ts t0 gs hist tck rest /\ good_ts ts /\ iso_valid gs /\ hist_valid ne hist /\ tck_valid t0 gs hist tck).
Proof.
  intros B L N. split.
  - intros (x & E). destruct (Nat.ltb_spec (length atr) 2) as [H|H].
    { exfalso. unfold atr_parse in E. apply Nat.ltb_lt in H. rewrite H in E. cbn [orb] in E. discriminate. }
    pose proof (atr_cases atr B ltac:(lia) N) as C. rewrite E in C. destruct C as (ts & t0 & gs & hist & tck & rest & Ly & Gt & _ & Vi & Vh & Vt & _).
    exists ts, t0, gs, hist, tck, rest. auto.
  - intros (ts & t0 & gs & hist & tck & rest & Ly & Gt & Vi & Vh & Vt). eapply atr_complete; eauto. eapply groups_len; eauto.
Qed.
Lemma ub_iff atr : bytes atr -> (2 <= length atr <= 33)%nat -> ~ td4 atr ->
  (atr_parse atr = UB <-> exists ts t0 gs l rest, layout atr ts t0 gs (0 :: l) [] rest /\ good_ts ts /\ iso_valid gs /\ (length l < 3)%nat).
Proof.
  intros B L N. split.
  - intro E. pose proof (atr_cases atr B L N) as C. rewrite E in C. destruct C as (ts & t0 & gs & l & rest & Ea & Gt & G & Lg & Lh & Vi & Ll).
    exists ts, t0, gs, l, rest. split; [|auto]. split; [exact Ea|auto].
  - intros (ts & t0 & gs & l & rest & Ly & Gt & Vi & Ll). pose proof (groups_len _ _ _ _ _ _ _ Ly N) as Lg. destruct Ly as (Ea & G & Lh). eapply atr_ub; eauto. lia.
Qed.
Lemma atr_timing atr x : bytes atr -> (length atr <= 33)%nat -> ~ td4 atr -> atr_parse atr = Ret (inr x) ->
  exists ts t0 gs hist tck rest, layout atr ts t0 gs hist tck rest /\ iso_valid gs /\
  exists Fi Di, is_rate gs Fi Di /\ p_Fi (i_params x) = Fi /\ p_Di (i_params x) = Di /\
    i_GT x = guard_time gs /\ i_CGT x = char_guard_time gs /\ i_WT x = waiting_time gs Di /\
    (one_T1 gs -> i_CWT x = char_waiting_time gs /\ p_IFSI (i_params x) = par_IFSI gs /\ p_edc (i_params x) = par_EDC gs /\
      (2 ^ (par_TB gs / 16) * Di <= 12026 -> i_BWT x = block_waiting_time gs Fi Di)).
Proof.
  intros B L N E. destruct (Nat.ltb_spec (length atr) 2) as [H|H].
  { exfalso. unfold atr_parse in E. apply Nat.ltb_lt in H. rewrite H in E. cbn [orb] in E. discriminate. }
  pose proof (atr_cases atr B ltac:(lia) N) as C. rewrite E in C. destruct C as (ts & t0 & gs & hist & tck & rest & Ly & Gt & _ & Vi & Vh & Vt & Pp & _ & _ & Cg & Cw & _).
  exists ts, t0, gs, hist, tck, rest. split; [exact Ly|]. split; [exact Vi|].
  assert (Bg : bytes (flat_map goctets gs)). { destruct Ly as (Ea & _). rewrite Ea in B. apply Forall_inv_tail, Forall_inv_tail, bytes_app in B. tauto. }
  pose proof (group_bytes gs Bg) as Gb.
  apply timing; auto; apply byte_of_byte; intros g Hg; apply (Gb g Hg).
Qed.
Lemma atr_status atr x : bytes atr -> (length atr <= 33)%nat -> ~ td4 atr -> atr_parse atr = Ret (inr x) ->
  exists ts t0 gs hist tck rest, layout atr ts t0 gs hist tck rest /\ status_spec hist (i_status x) /\ status_fields (i_status x) = (i_LCS x, i_SW1 x, i_SW2 x).
Proof.
  intros B L N E. destruct (Nat.ltb_spec (length atr) 2) as [H|H].
  { exfalso. unfold atr_parse in E. apply Nat.ltb_lt in H. rewrite H in E. cbn [orb] in E. discriminate. }
  pose proof (atr_cases atr B ltac:(lia) N) as C. rewrite E in C. destruct C as (ts & t0 & gs & hist & tck & rest & Ly & Gt & _ & Vi & Vh & Vt & Pp & _ & _ & Cg & Cw & Ss & Sf).
  exists ts, t0, gs, hist, tck, rest. auto.
Qed.
Lemma emv_iff atr : bytes atr -> ~ td4 atr ->
  (emv_atr_parse atr = Ret 0 <-> (length atr <= 33)%nat /\ exists ts t0 gs hist tck rest, layout atr ts t0 gs hist tck rest /\ good_ts ts /\ iso_valid gs /\ hist_valid ne hist /\ tck_valid t0 gs hist tck /\ emv_rules gs).
Proof.
  intros B N.
  assert (K : forall x, atr_parse atr = gives x -> (2 <= length atr <= 33)%nat).
  { intros x E. unfold atr_parse in E. destruct (Nat.ltb_spec (length atr) 2), (Nat.ltb_spec 33 (length atr)); cbn [orb] in E; try discriminate E. lia. }
  assert (M : forall x, atr_parse atr = gives x -> exists ts t0 gs hist tck rest, layout atr ts t0 gs hist tck rest /\ good_ts ts /\ iso_valid gs /\ hist_valid ne hist /\ tck_valid t0 gs hist tck /\
     (emv_atr_parse atr = Ret 0 <-> emv_rules gs)).
  { intros x E. pose proof (K x E) as L. pose proof (atr_cases atr B L N) as C. rewrite E in C.
    destruct C as (ts & t0 & gs & hist & tck & rest & Ly & Gt & _ & Vi & Vh & Vt & Pp & Ep & Eat & _).
    exists ts, t0, gs, hist, tck, rest. repeat (split; [assumption|]). destruct Ly as (Ea & G & _).
    eapply emv_core; eauto; [lia|eapply deref_ok; eauto|]. rewrite Ea in B. apply Forall_inv_tail, Forall_inv_tail, bytes_app in B. tauto. }
  split.
  - intro E. assert (A : accepted atr).
    { unfold emv_atr_parse in E. destruct (Nat.eqb_spec (length atr) 0); [discriminate|]. destruct (atr_parse atr) as [[e|x]| |] eqn:Ea; cbn [bind] in E; try discriminate; [destruct (e <? 0); discriminate|].
      exists x. exact Ea. }
    destruct A as (x & A). split; [apply (K x A)|]. destruct (M x A) as (ts & t0 & gs & hist & tck & rest & Ly & Gt & Vi & Vh & Vt & Em).
    exists ts, t0, gs, hist, tck, rest. tauto.
  - intros (L & ts & t0 & gs & hist & tck & rest & Ly & Gt & Vi & Vh & Vt & Em).
    destruct (atr_complete _ _ _ _ _ _ _ B L Ly (groups_len _ _ _ _ _ _ _ Ly N) Gt Vi Vh Vt) as (x & E). pose proof (K x E) as L'.
    pose proof (atr_cases atr B L' N) as C. rewrite E in C.
    destruct C as (ts' & t0' & gs' & hist' & tck' & rest' & Ly' & _ & _ & Vi' & _ & _ & Pp & Ep & Eat & _).
    assert (gs' = gs) as ->.
    { destruct Ly as (E1 & G1 & _), Ly' as (E2 & G2 & _). rewrite E1 in E2. injection E2 as <- <- E2. eapply groups_unique; eauto. }
    destruct Ly' as (Ea & G & _).
    apply (emv_core atr x gs); auto; [lia|eapply deref_ok; eauto|]. rewrite Ea in B. apply Forall_inv_tail, Forall_inv_tail, bytes_app in B. tauto.
Qed.
Lemma layout_unique atr ts t0 gs hist tck rest ts' t0' gs' hist' tck' rest' : layout atr ts t0 gs hist tck rest -> layout atr ts' t0' gs' hist' tck' rest' ->
  ts' = ts /\ t0' = t0 /\ gs' = gs /\ hist' = hist /\ tck' ++ rest' = tck ++ rest.
Proof.
  intros (E1 & G1 & H1) (E2 & G2 & H2). rewrite E1 in E2. injection E2 as <- <- E2.
  assert (gs' = gs) as -> by (eapply groups_unique; eauto). apply app_inv_head in E2.
  assert (L : length hist = length hist') by (unfold Zlen in *; lia).
  assert (Q : hist = hist' /\ tck ++ rest = tck' ++ rest'); [|destruct Q; auto].
  clear -L E2. revert hist' L E2. induction hist as [|a h IH]; intros [|b h'] L E; cbn in *; try lia; [auto|]. injection E as -> E. destruct (IH h' ltac:(lia) E) as (-> & ->). auto.
Qed.
Lemma check_byte atr ts t0 gs hist c rest : bytes atr -> (length atr <= 33)%nat -> ~ td4 atr -> accepted atr ->
  layout atr ts t0 gs hist [c] rest -> tck_required gs -> xors (t0 :: flat_map goctets gs ++ hist ++ [c]) = 0.
Proof.
  intros B L N A Ly Rq. apply (proj1 (atr_iff atr B L N)) in A as (ts' & t0' & gs' & hist' & tck' & rest' & Ly' & _ & _ & _ & Vt).
  destruct (layout_unique _ _ _ _ _ _ _ _ _ _ _ _ _ Ly Ly') as (-> & -> & -> & -> & E). destruct Vt as [(_ & d & -> & X)|(Q & _)]; [|contradiction].
  cbn [app] in E. injection E as -> _. exact X.
Qed.
Lemma check_byte_present atr ts t0 gs hist rest : bytes atr -> (length atr <= 33)%nat -> ~ td4 atr -> accepted atr ->
  layout atr ts t0 gs hist [] rest -> tck_required gs -> rest <> [].
Proof.
  intros B L N A Ly Rq. apply (proj1 (atr_iff atr B L N)) in A as (ts' & t0' & gs' & hist' & tck' & rest' & Ly' & _ & _ & _ & Vt).
  destruct (layout_unique _ _ _ _ _ _ _ _ _ _ _ _ _ Ly Ly') as (-> & -> & -> & -> & E). destruct Vt as [(_ & d & -> & X)|(Q & _)]; [|contradiction].
  cbn [app] in E. rewrite <- E. discriminate.
Qed.
Lemma octs_len y g : matches y g -> length (goctets g) = (Nat.b2n (Z.testbit y 4) + Nat.b2n (Z.testbit y 5) + Nat.b2n (Z.testbit y 6) + Nat.b2n (Z.testbit y 7))%nat.
Proof.
  intros (A & B & C & D). unfold goctets. rewrite !app_length.
  assert (Q : forall (o : option Z) (b : bool), (o <> None <-> b = true) -> length (oct o) = Nat.b2n b).
  { intros o b H. destruct o; cbn [oct length]; destruct b; cbn; auto; exfalso; [assert (false = true) by (apply H; discriminate); discriminate|apply H; reflexivity]. }
  rewrite (Q _ _ A), (Q _ _ B), (Q _ _ C), (Q _ _ D). lia.
Qed.
Lemma no_layout : ~ exists ts t0 gs hist tck rest, layout [0x3B; 0x80; 0x81; 0xA1; 0x41; 0x81; 0x60] ts t0 gs hist tck rest.
Proof.
  intros (ts & t0 & gs & hist & tck & rest & E & G & _). injection E as <- <- E.
  assert (M : forall y g h, matches y h -> groups y (g :: []) \/ True -> True) by auto. clear M.
  set (g1 := mkGroup None None None (Some 0x81)). set (g2 := mkGroup None None None (Some 0xA1)). set (g3 := mkGroup None (Some 0x41) None (Some 0x81)). set (g4 := mkGroup None None None (Some 0x60)).
  assert (M1 : matches 0x80 g1) by (vm_compute; repeat split; congruence). assert (M2 : matches 0x81 g2) by (vm_compute; repeat split; congruence).
  assert (M3 : matches 0xA1 g3) by (vm_compute; repeat split; congruence). assert (M4 : matches 0x81 g4) by (vm_compute; repeat split; congruence).
  assert (St : forall y g t h l gs r, matches y g -> gD g = Some t -> groups y (h :: gs) -> goctets g ++ l = flat_map goctets (h :: gs) ++ r -> exists k ks, gs = k :: ks /\ groups t (k :: ks) /\ l = flat_map goctets (k :: ks) ++ r).
  { clear. intros y g t h l gs r M D G E. cbn [flat_map] in E. rewrite <- app_assoc in E.
    inversion G as [? ? M' D'|? ? t' ? M' D' G']; subst.
    - destruct (matches_unique _ _ _ _ _ M M' E) as (-> & _). congruence.
    - destruct (matches_unique _ _ _ _ _ M M' E) as (-> & ->). assert (t' = t) as -> by congruence. inversion G'; subst; eauto. }
  destruct gs as [|h1 gs]; [inversion G|].
  destruct (St _ g1 _ _ _ _ _ M1 eq_refl G E) as (h2 & gs2 & -> & G2 & E2).
  destruct (St _ g2 _ _ [0x41; 0x81; 0x60] _ _ M2 eq_refl G2 E2) as (h3 & gs3 & -> & G3 & E3).
  destruct (St _ g3 _ _ [0x60] _ _ M3 eq_refl G3 E3) as (h4 & gs4 & -> & G4 & E4).
  destruct (St _ g4 _ _ [] _ _ M4 eq_refl G4 E4) as (h5 & gs5 & -> & G5 & E5).
  assert (M5 : matches 0x60 h5) by (inversion G5; assumption). apply octs_len in M5. apply (f_equal (@length Z)) in E5. cbn [flat_map] in E5. rewrite !app_length, M5 in E5. cbn in E5. lia.
Qed.
Lemma td4_no atr : (forall r, atr = r -> Z.testbit (nth 1 r 0) 7 = false) -> ~ td4 atr.
Proof.
  intros H (ts & t0 & g1 & g2 & g3 & t1 & t2 & t3 & r & E & M & D & _). specialize (H _ E). cbn [nth] in H.
  destruct M as (_ & _ & _ & M). rewrite D in M. assert (Z.testbit t0 7 = true) by (apply M; discriminate). congruence.
Qed.
Lemma rest_refuted : exists atr, bytes atr /\ (length atr <= 33)%nat /\ ~ td4 atr /\ accepted atr /\
  forall ts t0 gs hist tck rest, layout atr ts t0 gs hist tck rest -> tck_valid t0 gs hist tck -> rest <> [].
Proof.
  exists [0x3B; 0x00; 0x55]. split; [repeat constructor; unfold is_byte; lia|]. split; [cbn; lia|]. split; [apply td4_no; intros r <-; reflexivity|]. split; [eexists; vm_compute; reflexivity|].
  intros ts t0 gs hist tck rest Ly Vt.
  assert (L0 : layout [0x3B; 0x00; 0x55] 0x3B 0x00 [mkGroup None None None None] [] [] [0x55]).
  { split; [reflexivity|]. split; [|reflexivity]. apply groups_last; [|reflexivity]. vm_compute. repeat split; congruence. }
  destruct (layout_unique _ _ _ _ _ _ _ _ _ _ _ _ _ L0 Ly) as (-> & -> & -> & -> & E).
  destruct Vt as [((g & t & [<-|[]] & D & _) & _)|(_ & ->)]; [discriminate|]. cbn in E. subst rest. discriminate.
Qed.
Lemma well_formed_refuted : exists atr ts t0 gs hist tck, bytes atr /\ (length atr <= 33)%nat /\ ~ td4 atr /\ layout atr ts t0 gs hist tck [] /\ good_ts ts /\
  iso_valid gs /\ hist_valid (fun _ => True) hist /\ tck_valid t0 gs hist tck /\ ~ accepted atr.
Proof.
  exists [0x3B; 0x04; 0x00; 0x05; 0x90; 0x00], 0x3B, 0x04, [mkGroup None None None None], [0x00; 0x05; 0x90; 0x00], [].
  split; [repeat constructor; unfold is_byte; lia|]. split; [cbn; lia|]. split; [apply td4_no; intros r <-; reflexivity|].
  split; [split; [reflexivity|]; split; [|reflexivity]; apply groups_last; [|reflexivity]; vm_compute; repeat split; congruence|].
  split; [left; reflexivity|]. split.
  { unfold iso_valid, byte_of. cbn. repeat (split; [discriminate|]). split; [|intros ? ? []]. intros i b _. destruct (i - 1)%nat as [|[|n]]; cbn; discriminate. }
  split; [exists [], [0x05; 0x90; 0x00]; repeat split; exists []; split; [constructor|reflexivity]|].
  split; [right; split; [intros (g & t & [<-|[]] & D & _); discriminate|reflexivity]|]. intros (x & E). vm_compute in E. discriminate.
Qed.
