(** Properties of the descriptions of bit fields and coded fields (C93 to C103). *)
From Coq Require Import String.
From Verif Require Import Base BaseLemmas StrModel CapduModel FieldsModel FlagsModel TlvSpec BerSpec FieldsSpec StrSpec CapduSpec
  FlagsSpec StrProofs CapduProofs FieldsProofs FlagsProofs FlagsTexts FlagsMore FlagsData FlagsAuth.
Open Scope string_scope.
Open Scope Z_scope.
Open Scope list_scope.
Notation length := List.length.

(** A buffer of [n] sevens with the lines of [t] in it. *)
Definition filled (n : nat) (t : list (list Z)) : list Z := lines t ++ 0 :: skipn (S (length (lines t))) (repeat 7 n).

(** A list function for fields of [n] octets shows exactly the texts of the table, and refuses
    fields of any other length without touching the buffer. *)
Definition shows_table (f : list Z -> list Z -> out (Z * list Z)) (n : Z) (t : list row) : Prop :=
  forall v str, bytes v -> str <> [] ->
  (Zlen v = n -> exists new, f v str = Ret (0, new) /\ in_lines str new (table_texts t v)) /\
  (Zlen v <> n -> exists r, r <> 0 /\ f v str = Ret (r, str)).
Lemma shows strict n p t : prog_ok n p t = true -> forallb named t = true -> 0 < n -> shows_table (field_list strict n p) n t.
Proof.
  intros P F N v str B S. destruct (field_listed strict n p t P F N v str B) as [A C].
  split; [intros L; exact (A L S)|intros L; exact (C L S)].
Qed.

(** C93. *)
Theorem C93_bit_fields :
  shows_table term_caps_list 3 T_term_caps /\ shows_table aip_list 2 T_aip /\ shows_table auc_list 2 T_auc /\
  shows_table tvr_list 5 T_tvr /\ shows_table tsi_list 2 T_tsi /\ shows_table trmd_list 8 T_trmd /\
  shows_table ttq_list 4 T_ttq /\ shows_table ctq_list 2 T_ctq /\ shows_table enh_caps_list 4 T_enh_caps.
Proof. repeat match goal with |- _ /\ _ => split end; (apply shows; [vm_compute; reflexivity|reflexivity|lia]). Qed.
Print Assumptions C93_bit_fields.
Theorem C93_form_factor_indicator : forall v str, bytes v -> str <> [] ->
  (Zlen v = 4 -> range (octet v 1) 8 6 = 1 -> exists new, ffi_list v str = Ret (0, new) /\ in_lines str new (table_texts T_ffi v)) /\
  (Zlen v = 4 -> range (octet v 1) 8 6 <> 1 -> exists new, ffi_list v str = Ret (0, new) /\
     in_lines str new [lit "Form Factor Indicator (FFI): Version Number " ++ decimal_text (range (octet v 1) 8 6)]) /\
  (Zlen v <> 4 -> exists r, r <> 0 /\ ffi_list v str = Ret (r, str)).
Proof. exact ffi_listed. Qed.
Print Assumptions C93_form_factor_indicator.
Theorem C93_cryptogram_information : forall b str, is_byte b -> str <> [] ->
  exists new, cid_list b str = Ret (0, new) /\ in_lines str new (table_texts T_cid [b]).
Proof. exact cid_listed. Qed.
Print Assumptions C93_cryptogram_information.
(** No set bit of these fields goes unmentioned. *)
Theorem C93_nothing_hidden : forall v, bytes v ->
  (length v = 5%nat -> (table_texts T_tvr v = [] <-> Forall (fun b => b = 0) v)) /\
  (length v = 2%nat -> (table_texts T_tsi v = [] <-> Forall (fun b => b = 0) v)) /\
  (length v = 2%nat -> (table_texts T_aip v = [] <-> Forall (fun b => b = 0) v)) /\
  (length v = 2%nat -> (table_texts T_auc v = [] <-> Forall (fun b => b = 0) v)) /\
  (length v = 2%nat -> (table_texts T_ctq v = [] <-> Forall (fun b => b = 0) v)) /\
  (length v = 8%nat -> (table_texts T_trmd v = [] <-> Forall (fun b => b = 0) v)).
Proof.
  intros v B. repeat match goal with |- _ /\ _ => split end; intros L; (apply covered_spec; [rewrite L; vm_compute; reflexivity|vm_compute; reflexivity|exact B]).
Qed.
Print Assumptions C93_nothing_hidden.
Example C93_ex :
  tvr_list [0x80;0;4;0;0] (repeat 7 100) =
    Ret (0, lit "Offline data authentication was not performed" ++ [10] ++ lit "Online CVM captured" ++ [10] ++ 0 :: repeat 7 33) /\
  tsi_list [0xE8;0;0] (repeat 7 9) = Ret (1, repeat 7 9) /\
  ctq_list [0x80;0] (repeat 7 12) = Ret (0, lit "Online PIN" ++ [10; 0]).
Proof. vm_compute. auto. Qed.

(** What [in_lines] says about a buffer that is large enough. *)
Lemma in_lines_fits str new t : in_lines str new t -> t <> [] -> (3 <=? length str)%nat = true -> (length (lines t) <? length str)%nat = true ->
  new = lines t ++ 0 :: skipn (S (length (lines t))) str.
Proof.
  intros (c & _ & W & T & _) NE L3 F. apply Nat.leb_le in L3. apply Nat.ltb_lt in F. rewrite (W F) in T. destruct (T NE L3) as [_ H]. exact H.
Qed.
Definition differs (str new : list Z) (t : list (list Z)) : bool :=
  (3 <=? length str)%nat && (length (lines t) <? length str)%nat && negb (list_eqb new (lines t ++ 0 :: skipn (S (length (lines t))) str)).
Lemma differs_not str new t : t <> [] -> differs str new t = true -> ~ in_lines str new t.
Proof.
  intros NE D I. unfold differs in D. apply andb_prop in D as [D D3]. apply andb_prop in D as [D1 D2].
  rewrite (in_lines_fits _ _ _ I NE D1 D2) in D3.
  assert (X : forall l, list_eqb l l = true) by (intros l; apply list_eqb_spec; reflexivity). rewrite X in D3. discriminate.
Qed.

(** C94: false.  A terminal without any output is said to lack an input capability. *)
Theorem C94_additional_capabilities_refuted :
  exists v str new, bytes v /\ Zlen v = 5 /\ addl_term_caps_list v str = Ret (0, new) /\ ~ in_lines str new (table_texts T_addl_term_caps v).
Proof.
  exists [0x60;0;0xF0;0;1], (repeat 0 400). eexists. split; [repeat constructor; unfold is_byte; lia|]. split; [reflexivity|].
  split; [vm_compute; reflexivity|]. apply differs_not; [discriminate|vm_compute; reflexivity].
Qed.
Print Assumptions C94_additional_capabilities_refuted.
(** C94: true if any of the four output bits is set; missing: terminals without output. *)
Theorem C94_additional_capabilities_partial : forall v str, bytes v -> str <> [] ->
  (Zlen v = 5 -> range (octet v 4) 8 5 <> 0 ->
    exists new, addl_term_caps_list v str = Ret (0, new) /\ in_lines str new (table_texts T_addl_term_caps v)) /\
  (Zlen v = 5 -> exists new, addl_term_caps_list v str = Ret (0, new) /\ length new = length str) /\
  (Zlen v <> 5 -> exists r, r <> 0 /\ addl_term_caps_list v str = Ret (r, str)).
Proof. exact addl_listed. Qed.
Print Assumptions C94_additional_capabilities_partial.
Example C94_ex : addl_term_caps_list [0x80;0;0x80;0x80;0] (repeat 7 200) =
  Ret (0, filled 200 [lit "Transaction Type Capability: Cash"; lit "Terminal Data Input Capability: Numeric keys";
                 lit "Terminal Data Output Capability: Print or electronic, attendant"]).
Proof. vm_compute. reflexivity. Qed.

(** C95. *)
Theorem C95_afl_text : forall es str, Forall afl_valid es -> (1 <= length es <= 63)%nat -> str <> [] ->
  exists new, afl_list (flat_map afl_octets es) str = Ret (0, new) /\ in_lines str new (map afl_line es).
Proof. exact afl_listed. Qed.
Print Assumptions C95_afl_text.
Theorem C95_afl_refused : forall l str, bytes l -> str <> [] ->
  ~ (exists es, Forall afl_valid es /\ (1 <= length es <= 63)%nat /\ l = flat_map afl_octets es) ->
  exists r new, afl_list l str = Ret (r, new) /\ r <> 0 /\ length new = length str /\ (new = str \/ 0 < r /\ hd 1 new = 0).
Proof. exact afl_not_listed. Qed.
Print Assumptions C95_afl_refused.
Example C95_ex : afl_list [0x08;1;1;0; 0x18;1;3;1] (repeat 7 100) =
  Ret (0, filled 100 [lit "SFI 1, record 1"; lit "SFI 3, record 1 to 3, 1 record used for offline data authentication"]).
Proof. vm_compute. reflexivity. Qed.

(** C96. *)
Theorem C96_cvm_list_text : forall junk l str, bytes l -> str <> [] -> length junk = 128%nat ->
  (exists r, cvm_list_list junk l str = Ret (r, str) /\ r <> 0 /\ (Zlen l mod 2 <> 0 \/ Zlen l < 10 \/ 252 < Zlen l)) \/
  (exists x y rules new, l = x ++ y ++ flat_map (fun r => [fst r; snd r]) rules /\ length x = 4%nat /\ length y = 4%nat /\
     (1 <= length rules)%nat /\ cvm_list_list junk l str = Ret (0, new) /\ in_lines str new (map (rule_line (be x) (be y)) rules)).
Proof. exact cvm_list_exact. Qed.
Print Assumptions C96_cvm_list_text.
Theorem C96_cvm_results_text : forall junk a b c str, is_byte a -> is_byte b -> is_byte c -> str <> [] -> length junk = 128%nat ->
  exists new, cvm_results_list junk [a; b; c] str = Ret (0, new) /\ in_lines str new (cvm_results_lines a b c).
Proof. exact cvm_results_exact. Qed.
Print Assumptions C96_cvm_results_text.
Example C96_ex : cvm_list_list (repeat 9 128) [0;0;0;100;0;0;0;0; 0x42;6] (repeat 7 200) =
  Ret (0, filled 200 [lit "If transaction is in the application currency and is under 100 value; Enciphered PIN verified online; Apply succeeding CV Rule if this CVM is unsuccessful"]).
Proof. vm_compute. reflexivity. Qed.

(** C97: false.  Of CCD data only bit 5 of octet 6 means that the upper amount limit is exceeded;
    the constant the code uses (emv_fields.h) has bit 6, that of the lower amount limit. *)
Definition ccd_data : list Z := [0x0F; 0xA5; 1; 0; 0; 0x10; 0; 0; 0;0;0;0;0;0;0;0; 0x0F; 0;0;0;0;0;0;0;0;0;0;0;0;0;0;0].
Theorem C97_issuer_application_data_refuted :
  exists iad str new, bytes iad /\ iad_is IAD_CCD iad /\ iad_list iad str = Ret (0, new) /\ ~ in_lines str new (iad_texts IAD_CCD iad).
Proof.
  exists ccd_data, (repeat 0 1000). eexists. split; [repeat constructor; unfold is_byte; lia|].
  split; [apply FieldsSpec.iad_ccd; try reflexivity; left; reflexivity|]. split; [vm_compute; reflexivity|].
  apply differs_not; [discriminate|vm_compute; reflexivity].
Qed.
Print Assumptions C97_issuer_application_data_refuted.
(** C97: true of all other formats, and of CCD data in which the two bits are equal. *)
Theorem C97_issuer_application_data_partial : forall f iad str, bytes iad -> (length iad <= 32)%nat -> str <> [] -> iad_is f iad ->
  f <= 3 \/ (forall g, g <= 3 -> ~ iad_is g iad) -> f <> IAD_CCD \/ bit (octet iad 6) 6 = bit (octet iad 6) 5 ->
  exists new, iad_list iad str = Ret (0, new) /\ in_lines str new (iad_texts f iad).
Proof. exact iad_listed. Qed.
Print Assumptions C97_issuer_application_data_partial.
Theorem C97_unknown_format_partial : forall iad str, bytes iad -> (1 <= length iad <= 32)%nat -> str <> [] -> (forall g, ~ iad_is g iad) ->
  exists new, (iad_bad_vsdc iad -> iad_list iad str = Ret (-1, new) /\ in_lines str new [lit "Invalid IAD format"]) /\
              (~ iad_bad_vsdc iad -> iad_list iad str = Ret (0, new) /\ in_lines str new [lit "Unknown IAD format"]).
Proof. exact iad_unlisted. Qed.
Print Assumptions C97_unknown_format_partial.
Example C97_ex : iad_list [6; 1; 0x0A; 3; 0; 0x40; 0] (repeat 7 600) =
  Ret (0, filled 600 (iad_texts IAD_VSDC_0 [6; 1; 0x0A; 3; 0; 0x40; 0])).
Proof. vm_compute. reflexivity. Qed.

(** C98: false.  Five octets with bit 8 of the unique identifier clear: the second octet of the
    device type is read behind the field. *)
Theorem C98_third_party_data_refuted :
  exists v str, bytes v /\ str <> [] /\ tpd_list (fun _ => None) v str = UB.
Proof.
  exists [0x05;0x28;0;0;0x30], (repeat 0 100). split; [repeat constructor; unfold is_byte; lia|]. split; [discriminate|]. vm_compute. reflexivity.
Qed.
Print Assumptions C98_third_party_data_refuted.
Theorem C98_third_party_text_partial : forall country v t str, bytes v -> str <> [] -> third_party country v t ->
  exists new, tpd_list country v str = Ret (0, new) /\ in_lines str new t.
Proof. exact tpd_listed. Qed.
Print Assumptions C98_third_party_text_partial.
(** Safe for all other data. *)
Theorem C98_third_party_safe_partial : forall country v str, bytes v -> length v <> 5%nat \/ 128 <= nth 2 v 0 ->
  exists r new, tpd_list country v str = Ret (r, new) /\ length new = length str.
Proof. exact tpd_safe. Qed.
Print Assumptions C98_third_party_safe_partial.
Example C98_ex : tpd_list (fun c => if list_eqb c [0x05;0x28] then Some (lit "Netherlands") else None) [0x05;0x28;0;0;0x30;0x32;0] (repeat 7 150) =
  Ret (0, filled 150 [lit "Country: Netherlands"; lit "Unique Identifier: Proprietary Data not used"; lit "Device Type: 02 - Key Fob";
                 lit "Proprietary Data: Not used"]).
Proof. vm_compute. reflexivity. Qed.

(** C99: false in two respects.  A letter is missing from one text, and data of 17 to 32 octets
    is accepted although it must have 8 to 16. *)
Theorem C99_issuer_authentication_refuted :
  (exists iad t str new, bytes iad /\ issuer_auth iad t /\ issuer_auth_list (repeat 0 3) iad str = Ret (0, new) /\ ~ in_lines str new t) /\
  (exists iad str new, bytes iad /\ length iad = 17%nat /\ issuer_auth_list (repeat 0 3) iad str = Ret (0, new) /\ new <> str).
Proof.
  split.
  - exists ([1;2;3;4] ++ [0;1;0;0] ++ []). eexists. exists (repeat 0 400). eexists. split; [repeat constructor; unfold is_byte; lia|].
    split; [apply ia_ccd; try reflexivity; [cbn; lia|cbn; intros [H _]; discriminate]|]. split; [vm_compute; reflexivity|].
    apply differs_not; [discriminate|vm_compute; reflexivity].
  - exists (repeat 0 17), (repeat 0 100). eexists. split; [apply Forall_forall; intros x I; apply repeat_spec in I; subst; unfold is_byte; lia|].
    split; [reflexivity|]. split; [vm_compute; reflexivity|discriminate].
Qed.
Print Assumptions C99_issuer_authentication_refuted.
(** C99: true of data without that text; missing: it, and the upper length limit. *)
Theorem C99_issuer_authentication_partial : forall junk iad t str, length junk = 3%nat -> bytes iad -> str <> [] -> issuer_auth iad t ->
  ~ In (lit "Card Status Update (CSU): Set Offline Counters to Upper Offline Limits") t ->
  exists new, issuer_auth_list junk iad str = Ret (0, new) /\ in_lines str new t.
Proof. exact issuer_listed. Qed.
Print Assumptions C99_issuer_authentication_partial.
Theorem C99_issuer_authentication_safe_partial : forall junk iad str, length junk = 3%nat -> bytes iad ->
  exists r new, issuer_auth_list junk iad str = Ret (r, new) /\ length new = length str /\
    ((length iad < 8 \/ 32 < length iad)%nat -> str <> [] -> r <> 0 /\ new = str).
Proof. exact issuer_safe. Qed.
Print Assumptions C99_issuer_authentication_safe_partial.
Example C99_ex : issuer_auth_list (repeat 9 3) [1;2;3;4;5;6;7;0xAB;0x30;0x35] (repeat 7 100) =
  Ret (0, filled 100 [lit "Authorisation Response Cryptogram (ARPC): 01020304050607AB"; lit "Authorisation Response Code: 05"]).
Proof. vm_compute. reflexivity. Qed.

(** C100: false.  Types that are not defined are described as other, defined ones. *)
Theorem C100_terminal_type_refuted :
  exists b1 b2 str n1 n2, is_byte b1 /\ is_byte b2 /\ b1 / 16 = 5 /\ b2 mod 16 = 9 /\
    term_type_list b1 str = Ret (0, n1) /\ ~ in_lines str n1 (term_type_texts b1) /\
    term_type_list b2 str = Ret (0, n2) /\ ~ in_lines str n2 (term_type_texts b2).
Proof.
  exists 0x51, 0x29, (repeat 0 150). eexists. eexists. split; [unfold is_byte; lia|]. split; [unfold is_byte; lia|]. split; [reflexivity|]. split; [reflexivity|].
  split; [vm_compute; reflexivity|]. split; [apply differs_not; [discriminate|vm_compute; reflexivity]|].
  split; [vm_compute; reflexivity|]. apply differs_not; [discriminate|vm_compute; reflexivity].
Qed.
Print Assumptions C100_terminal_type_refuted.
(** C100: true if the digits are at most 3 and 7, so for all defined types. *)
Theorem C100_terminal_type_partial : forall b str, is_byte b -> b <> 0 -> str <> [] -> b / 16 <= 3 -> b mod 16 <= 7 ->
  exists new, term_type_list b str = Ret (0, new) /\ in_lines str new (term_type_texts b).
Proof. exact term_type_listed. Qed.
Print Assumptions C100_terminal_type_partial.
Theorem C100_terminal_type_two_lines_partial : forall b str, is_byte b -> b <> 0 -> str <> [] ->
  exists new texts, term_type_list b str = Ret (0, new) /\ length texts = 2%nat /\ in_lines str new texts.
Proof. exact term_type_safe. Qed.
Print Assumptions C100_terminal_type_two_lines_partial.
Example C100_ex : term_type_list 0x22 (repeat 7 100) =
  Ret (0, filled 100 [lit "Operational Control: Merchant"; lit "Environment: Attended, offline with online capability"]).
Proof. vm_compute. reflexivity. Qed.

(** C101. *)
Theorem C101_response_code_text : forall k d str, In (k, d) common_codes -> (10 <= length str)%nat ->
  exists new, arc_string (lit k) str = Ret (0, new) /\ shown str new (lit k ++ lit " - " ++ lit d).
Proof. exact arc_common. Qed.
Print Assumptions C101_response_code_text.
Theorem C101_response_code_any : forall x y str, (3 <= length str)%nat -> alnum x = true -> alnum y = true ->
  exists new tail, arc_string [x; y] str = Ret (0, new) /\ shown str new ([x; y] ++ tail) /\
    (tail = [] \/ exists d, tail = lit " - " ++ d).
Proof.
  intros x y str L X Y. destruct (arc_shown x y str L X Y) as (new & E & Sh). eexists new, _. split; [exact E|]. split; [exact Sh|].
  destruct (key_lookup _ _) as [d|]; [|left; reflexivity]. destruct (_ <? _)%nat; [left; reflexivity|right; exists d; reflexivity].
Qed.
Print Assumptions C101_response_code_any.
Theorem C101_response_code_refused : forall v str, (3 <= length str)%nat -> v <> [] -> Zlen v <> 2 \/ forallb alnum v = false ->
  exists r new, arc_string v str = Ret (r, new) /\ 0 < r /\ shown str new [].
Proof. exact arc_bad. Qed.
Print Assumptions C101_response_code_refused.
Example C101_ex : arc_string (lit "51") (repeat 7 12) = Ret (0, lit "51 - Not su" ++ [0]) /\ arc_string (lit "Y1") (repeat 7 4) = Ret (0, [89; 49; 0; 7]) /\
  arc_string (lit "5") (repeat 7 4) = Ret (1, [0; 7; 7; 7]).
Proof. vm_compute. auto. Qed.

(** C102. *)
Theorem C102_registered_data_text : forall es str, Forall asrpd_ok es -> es <> [] -> str <> [] ->
  exists new, asrpd_list (flat_map asrpd_entry es) str = Ret (0, new) /\ in_lines str new (map asrpd_line es).
Proof. exact asrpd_listed. Qed.
Print Assumptions C102_registered_data_text.
Theorem C102_registered_data_refused : forall v str, bytes v -> v <> [] -> str <> [] -> ~ (exists es, Forall asrpd_ok es /\ v = flat_map asrpd_entry es) ->
  exists r new, asrpd_list v str = Ret (r, new) /\ 0 < r /\ length new = length str.
Proof. exact asrpd_not_listed. Qed.
Print Assumptions C102_registered_data_refused.
Example C102_ex : asrpd_list [0;1;2;9;9; 0;9;0] (repeat 7 80) =
  Ret (0, filled 80 [lit "European Cards Stakeholders Group"; lit "Unknown ASRPD identifier"]).
Proof. vm_compute. reflexivity. Qed.

(** C103.  Codes of one octet. *)
Theorem C103_single_octets :
  let exact (f : Z -> list Z -> out (Z * list Z)) (g : Z -> string) := forall b str, is_byte b -> str <> [] ->
    (g b <> "" -> exists new, f b str = Ret (0, new) /\ shown str new (lit (g b))) /\
    (g b = "" -> f b str = Ret (1, str)) in
  exact pos_entry_string pos_entry /\ exact transaction_type_string transaction_type /\
  exact account_type_string account_type /\ exact amex_caps_string amex_reader.
Proof.
  split; [|split; [|split]]; [apply (octet_string_ok pos_entry_modes)|apply (octet_string_ok transaction_types)|apply (octet_string_ok account_types)|exact amex_ok];
    vm_compute; reflexivity.
Qed.
Print Assumptions C103_single_octets.
Example C103_ex : pos_entry_string 7 (repeat 9 10) = Ret (0, lit "Auto entr" ++ [0]) /\ transaction_type_string 2 (repeat 9 3) = Ret (1, repeat 9 3) /\
  amex_caps_string 0xC8 (repeat 9 5) = Ret (0, lit "EMV " ++ [0]).
Proof. vm_compute. auto. Qed.
