(** Property theorems for src/emv_fields.c: C32, C45, C46, C57. *)
From Verif Require Import Base BaseLemmas BerSpec FieldsModel FieldsSpec FieldsProofs.

(** C32.  The encoding of valid entries is read back. *)
Theorem C32_afl_roundtrip : forall es, Forall afl_valid es -> (1 <= length es <= 63)%nat ->
  afl_itr_init (flat_map afl_octets es) = (0, Some (flat_map afl_octets es)) /\
  afl_all 253 (flat_map afl_octets es) = Ret (es, 0).
Proof.
  intros es V L. split.
  - assert (Z1 : Zlen (flat_map afl_octets es) = 4 * Z.of_nat (length es)) by (unfold Zlen; rewrite afl_flat_len; lia).
    destruct (afl_init_spec (flat_map afl_octets es)) as [[_ I1] I2].
    assert (E : fst (afl_itr_init (flat_map afl_octets es)) = 0) by (apply I1; rewrite Z1; split; [lia|lia]).
    specialize (I2 E). destruct (afl_itr_init (flat_map afl_octets es)). cbn in *. congruence.
  - apply afl_all_valid; [assumption|lia].
Qed.
Print Assumptions C32_afl_roundtrip.
(** C32.  Any octets: iteration stops with 0 at the end, or with an error at the
    first entry that is not valid; the entries before are exactly those
    encoded.  The number of steps is at most the number of octets. *)
Theorem C32_afl_any : forall itr, bytes itr ->
  exists es rest r, afl_all (S (length itr)) itr = Ret (es, r) /\ itr = flat_map afl_octets es ++ rest /\
    Forall afl_valid es /\ r <= 0 /\ (r = 0 <-> rest = []) /\
    (r <> 0 -> Zlen rest mod 4 = 0 -> ~ exists e, afl_valid e /\ firstn 4 rest = afl_octets e).
Proof. intros. apply afl_all_any; [assumption|lia]. Qed.
Print Assumptions C32_afl_any.
Theorem C32_afl_init : forall afl,
  (fst (afl_itr_init afl) = 0 <-> (1 <= Zlen afl <= 252 /\ Zlen afl mod 4 = 0)) /\
  (fst (afl_itr_init afl) = 0 -> snd (afl_itr_init afl) = Some afl).
Proof. exact afl_init_spec. Qed.
Print Assumptions C32_afl_init.
Example C32_ex : afl_all 20 [0x08;1;3;2; 0x10;1;1;2] = Ret ([mkAfl 1 1 3 2], -7) /\
  afl_valid (mkAfl 1 1 3 2) /\ ~ afl_valid (mkAfl 2 1 1 2).
Proof. split; [vm_compute; reflexivity|]. unfold afl_valid; cbn; lia. Qed.

(** C45.  Every octet string is either rejected, and then has an odd length or one
    outside 10..252, or consists of the two amounts (big endian) and the rules
    returned. *)
Theorem C45_cvm_list : forall l, bytes l ->
  (exists r, cvmlist_itr_init l = Ret (r, None) /\ r <> 0 /\ (Zlen l mod 2 <> 0 \/ Zlen l < 10 \/ 252 < Zlen l)) \/
  (exists x y rules itr, l = x ++ y ++ flat_map (fun r => [fst r; snd r]) rules /\ length x = 4%nat /\ length y = 4%nat /\
     (1 <= length rules <= 122)%nat /\
     cvmlist_itr_init l = Ret (0, Some (be x, be y, itr)) /\ cvm_all 250 itr = Ret (rules, 0)).
Proof. exact cvm_list. Qed.
Print Assumptions C45_cvm_list.
(** C45.  Iterating an odd number of octets fails without reading over the end. *)
Theorem C45_cvm_odd : forall itr, Zlen itr mod 2 = 1 -> cvmlist_itr_next itr = Ret (-2, None, itr).
Proof.
  intros itr H. unfold cvmlist_itr_next. destruct itr as [|a itr]; [unfold Zlen in H; cbn in H; lia|].
  cbn [length Nat.eqb]. rewrite land1, H. reflexivity.
Qed.
Print Assumptions C45_cvm_odd.
Example C45_ex : cvmlist_itr_init [0;0;1;0; 0;0;0;2; 0x42;1; 0x1F;3] = Ret (0, Some (256, 2, [0x42;1;0x1F;3])) /\
  cvm_all 250 [0x42;1;0x1F;3] = Ret ([(0x42,1); (0x1F,3)], 0).
Proof. vm_compute; auto. Qed.

(** C46.  False: every JCB AID gives -1. *)
Theorem C46_aid_jcb_refuted :
  exists aid, bytes aid /\ (5 <= length aid <= 16)%nat /\ In ([0xA0;0;0;0;0x65], SCHEME_JCB) schemes /\
    starts_with [0xA0;0;0;0;0x65] aid /\ forall s, aid_get_info aid <> Ret (0, s).
Proof.
  exists [0xA0;0;0;0;0x65;0x10;0x10]. split; [repeat (apply bytes_cons; [lia|]); constructor|]. split; [cbn; lia|].
  split; [cbn; auto 20|]. split; [exists [0x10;0x10]; reflexivity|]. intros s. vm_compute. discriminate.
Qed.
Print Assumptions C46_aid_jcb_refuted.
(** C46.  Exact for all other AIDs: scheme, and product of the AID prefix. *)
Theorem C46_aid_scheme_partial : forall aid p s, (5 <= length aid <= 16)%nat -> In (p, s) schemes -> starts_with p aid ->
  exists prod, product aid prod /\
    aid_get_info aid = Ret (if s =? SCHEME_JCB then (-1, (s, 0)) else (0, (s, prod))).
Proof. exact aid_scheme. Qed.
Print Assumptions C46_aid_scheme_partial.
Theorem C46_aid_unknown : forall aid, (5 <= length aid <= 16)%nat ->
  (forall p s, In (p, s) schemes -> ~ starts_with p aid) -> aid_get_info aid = Ret (-1, (0, 0)).
Proof. exact aid_unknown. Qed.
Print Assumptions C46_aid_unknown.
Theorem C46_aid_length : forall aid, ~ (5 <= length aid <= 16)%nat -> exists r, r <> 0 /\ aid_get_info aid = Ret (r, (0, 0)).
Proof. exact aid_length. Qed.
Print Assumptions C46_aid_length.
Theorem C46_schemes_differ :
  NoDup [0; SCHEME_VISA; SCHEME_MASTERCARD; SCHEME_AMEX; SCHEME_DISCOVER; SCHEME_CB; SCHEME_JCB; SCHEME_DANKORT; SCHEME_UNIONPAY;
         SCHEME_GIMUEMOA; SCHEME_DK; SCHEME_VERVE; SCHEME_EFTPOS; SCHEME_RUPAY; SCHEME_MIR; SCHEME_MEEZA].
Proof. repeat (constructor; [cbn [In]; intros H; repeat (destruct H as [H|H]; [discriminate H|]); destruct H|]). constructor. Qed.
Print Assumptions C46_schemes_differ.
Example C46_ex : aid_get_info [0xA0;0;0;0;4;0x30;0x60;9] = Ret (0, (SCHEME_MASTERCARD, 7)) /\
  product [0xA0;0;0;0;4;0x30;0x60;9] 7.
Proof.
  split; [vm_compute; reflexivity|].
  apply (product_known _ 6 [0xA0;0;0;0;4;0x30;0x60]); [reflexivity|exists [9]; reflexivity].
Qed.

(** C57. *)
Theorem C57_iad_format : forall iad, bytes iad -> exists r, iad_get_format iad = Ret r /\
  (forall f, iad_is f iad -> f <= 3 \/ (forall g, g <= 3 -> ~ iad_is g iad) -> r = f) /\
  (iad_bad_vsdc iad -> (forall g, ~ iad_is g iad) -> r = IAD_INVALID) /\
  (iad <> [] -> ~ iad_bad_vsdc iad -> (forall g, ~ iad_is g iad) -> r = IAD_UNKNOWN) /\
  (iad = [] -> r = IAD_INVALID).
Proof. exact iad_exact. Qed.
Print Assumptions C57_iad_format.
Theorem C57_formats_differ :
  NoDup [IAD_INVALID; IAD_UNKNOWN; IAD_CCD; IAD_MCHIP4; IAD_MCHIP_ADVANCE; IAD_VSDC_0; IAD_VSDC_1; IAD_VSDC_2; IAD_VSDC_3; IAD_VSDC_4].
Proof. repeat (constructor; [cbn [In]; intros H; repeat (destruct H as [H|H]; [discriminate H|]); destruct H|]). constructor. Qed.
Print Assumptions C57_formats_differ.
Example C57_ex : iad_get_format [6;1;0x0A;3;0xA0;0;0] = Ret IAD_VSDC_0 /\ iad_is IAD_VSDC_0 [6;1;0x0A;3;0xA0;0;0] /\
  iad_get_format (0x0F :: 0xA5 :: repeat 0 14 ++ 0x0F :: repeat 0 15) = Ret IAD_CCD /\
  iad_get_format [1;2;3] = Ret IAD_UNKNOWN /\ iad_get_format (6 :: 0x10 :: 0x20 :: 3 :: repeat 0 14) = Ret IAD_MCHIP4.
Proof. split; [vm_compute; reflexivity|]. split; [constructor; cbn; (lia || reflexivity)|]. vm_compute; auto. Qed.
