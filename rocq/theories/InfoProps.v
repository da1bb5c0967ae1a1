(** Properties of the description of fields (C105 to C111). *)
From Coq Require Import String.
From Verif Require Import Base BaseLemmas TlvModel StrModel CapduModel FieldsModel FlagsModel TlvSpec BerSpec FieldsSpec StrSpec CapduSpec
  FlagsSpec FieldsProofs InfoModel InfoSpec InfoProofs InfoTexts.
Open Scope string_scope.
Open Scope Z_scope.
Open Scope list_scope.
Notation length := List.length.

(** Lookups for the examples. *)
Definition ex_env : env := mkEnv
  (fun a => if list_eqb a (lit "NL") then Some (lit "Netherlands") else None)
  (fun a => if list_eqb a (lit "NLD") then Some (lit "Netherlands") else None)
  (fun n => if n =? 528 then Some (lit "Netherlands") else None)
  (fun n => if n =? 978 then Some (lit "Euro") else if n =? 840 then Some (lit "US Dollar") else None)
  (fun a => if list_eqb a (lit "nl") then Some (lit "Dutch") else if list_eqb a (lit "en") then Some (lit "English") else None)
  (fun n => if n =? 5999 then Some (lit "Miscellaneous and Specialty Retail Stores") else None)
  (repeat 7 128) (repeat 7 3) (repeat 7 128) (repeat 7 511).
Definition text_of (m : out (Z * option string * kind * list Z)) : out (Z * option string * kind * option (list Z)) :=
  let* (r, n, k, s) := m in Ret (r, n, k, cstring s).

(** C105 *)
Theorem C105_names : forall e tag v str r n k new, bytes v -> tlv_get_info e tag (Octets v) str = Ret (r, n, k, new) ->
  (forall s, n = Some s <-> field_name tag v s) /\ (n = None -> r = 1 /\ k = IsB /\ new = emptied str).
Proof. exact info_names. Qed.
Print Assumptions C105_names.
(** A name is given for every documented field, whenever the function returns. *)
Theorem C105_known : forall e tag s v str, bytes v -> In (tag, s) documented ->
  match tlv_get_info e tag (Octets v) str with Ret (_, n, _, _) => n = Some s | _ => True end.
Proof.
  intros e tag s v str B I. destruct (tlv_get_info e tag (Octets v) str) as [[[[r n] k] new]| |] eqn:E; auto.
  apply (info_names e tag v str r n k new B E). apply fn_documented, I.
Qed.
Print Assumptions C105_known.
Theorem C105_entries : forall e tag n r name k, tlv_get_info e tag (Null n) [] = Ret (r, name, k, []) -> forall s, name = Some s <-> entry_name tag n s.
Proof. exact entry_names. Qed.
Print Assumptions C105_entries.
Theorem C105_lists : forall e tag x str r n k new, tlv_get_info e tag x str = Ret (r, n, k, new) ->
  (k = IsDol <-> In tag [0x8C; 0x8D; 0x9F38; 0x9F49]) /\ (k = IsTagList <-> tag = 0x9F4A).
Proof. exact info_kinds. Qed.
Print Assumptions C105_lists.
Example C105_ex : text_of (tlv_get_info ex_env 0x9F36 (Octets [0; 7]) (repeat 9 16)) = Ret (0, Some "Application Transaction Counter (ATC)", IsB, Some []) /\
  (let* (r, n, k, s) := tlv_get_info ex_env 0x9F6E (Octets [0x20; 0x40; 0; 0]) (repeat 9 4) in Ret (r, n)) = Ret (0, Some "Form Factor Indicator (FFI)") /\
  (let* (r, n, k, s) := tlv_get_info ex_env 0x9F6E (Octets [0xD8; 0x80; 0; 3]) (repeat 9 4) in Ret (r, n)) = Ret (0, Some "Enhanced Contactless Reader Capabilities") /\
  tlv_get_info ex_env 0x9F6E (Octets [1; 2]) [5; 6] = Ret (1, None, IsB, [0; 6]) /\ tlv_get_info ex_env 0xDF01 (Octets []) [] = Ret (1, None, IsB, []) /\
  tlv_get_info ex_env 0x9F37 (Null 4) [] = Ret (0, Some "Unpredictable Number", IsB, []) /\
  tlv_get_info ex_env 0x9F6E (Null 4) [] = Ret (1, None, IsB, []).
Proof. repeat split; vm_compute; reflexivity. Qed.

(** C106: empty fields and dates, and Data Object Lists with an entry 84 0E. *)
Theorem C106_info_in_bounds_refuted : exists e v1 v2 str,
  arrays e /\ bytes v1 /\ bytes v2 /\ length str = 2048%nat /\
  tlv_get_info e 0x9C (Octets v1) str = UB /\ tlv_get_info e 0x9A (Octets v2) str = UB /\ tlv_get_info e 0x84 (Null 14) [] = UB.
Proof.
  exists ex_env, [], [0x24; 0x12; 0x31], (repeat 0 2048). split; [repeat split; reflexivity|]. split; [constructor|].
  split; [repeat constructor; unfold is_byte; lia|]. split; [apply repeat_length|]. repeat (split; [vm_compute; reflexivity|]). vm_compute; reflexivity.
Qed.
Print Assumptions C106_info_in_bounds_refuted.
(** What holds: memory outside the value or the buffer is accessed exactly for the fields of
    [stray_field]; otherwise a NUL-terminated string is left in the buffer.  Numbers need 11 chars. *)
Theorem C106_info_partial : forall e tag v str,
  array_sizes (j_text e) (j_arc e) (j_cond e) (j_id e) -> bytes v -> str <> [] -> (11 <= length str)%nat \/ ~ In tag number_tags ->
  (stray_field tag v str -> tlv_get_info e tag (Octets v) str = UB) /\
  (~ stray_field tag v str -> exists r n k new s, tlv_get_info e tag (Octets v) str = Ret (r, n, k, new) /\ length new = length str /\ cstring new = Some s).
Proof.
  intros e tag v str A B NE R. destruct str as [|c t]; [contradiction|].
  change (stray_field tag v (c :: t)) with (stray_field tag v (0 :: t)).
  destruct (info_safety e tag v c t A B R) as [[S E]|[S (r & n & k & new & E & L & I)]]; split; intros H; try contradiction; [exact E|].
  destruct (in_cstring new I) as (s & C). exists r, n, k, new, s. auto.
Qed.
Print Assumptions C106_info_partial.
Theorem C106_entries_partial : forall e tag n,
  (tag = 0x84 /\ n = 14%nat -> tlv_get_info e tag (Null n) [] = UB) /\
  (~ (tag = 0x84 /\ n = 14%nat) -> exists r name k, tlv_get_info e tag (Null n) [] = Ret (r, name, k, [])).
Proof. exact entry_safety. Qed.
Print Assumptions C106_entries_partial.
Example C106_ex : text_of (tlv_get_info ex_env 0x9C (Octets [0x20]) (repeat 9 8)) = Ret (0, Some "Transaction Type", IsN, Some (lit "Refund")) /\
  text_of (tlv_get_info ex_env 0x57 (Octets [0x47; 0x61; 0xD2; 0x2F]) (repeat 9 8)) = Ret (0, Some "Track 2 Equivalent Data", IsB, Some (lit "4761=22")) /\
  tlv_get_info ex_env 0x57 (Octets [0x47; 0x61; 0xD2; 0x21]) (repeat 9 8) = UB /\
  tlv_get_info ex_env 0x9F6E (Octets [1; 2; 0; 3; 4]) (repeat 9 200) = UB.
Proof. repeat split; vm_compute; reflexivity. Qed.

(** C107: a 14-octet AID is shown as if it were text. *)
Theorem C107_df_name_refuted : exists e v s str, bytes v /\ length v = 14%nat /\ aid_text v s /\ ~ In v env_names /\ (length (lit s) < length str)%nat /\
  exists r n k new, tlv_get_info e 0x84 (Octets v) str = Ret (r, n, k, new) /\ cstring new <> Some (lit s) /\ firstn 14 new = v.
Proof.
  exists ex_env, [0xA0;0;0;0;3;0x10;0x10;1;2;3;4;5;6;7], "Visa Credit/Debit", (repeat 9 32).
  split; [repeat constructor; unfold is_byte; lia|]. split; [reflexivity|].
  split; [refine (at_product _ [0xA0;0;0;0;3;0x10;0x10] _ _ _); [cbn; tauto|exists [1;2;3;4;5;6;7]; reflexivity]|].
  split; [vm_compute; intuition discriminate|]. split; [vm_compute; lia|].
  do 4 eexists. split; [vm_compute; reflexivity|]. split; [vm_compute; discriminate|vm_compute; reflexivity].
Qed.
Print Assumptions C107_df_name_refuted.
Theorem C107_df_name_partial : forall e v str, bytes v -> (length v < length str)%nat ->
  (In v env_names -> exists n k new, tlv_get_info e 0x84 (Octets v) str = Ret (0, n, k, new) /\ shown str new v) /\
  (length v <> 14%nat ->
     (forall s, aid_text v s -> (5 <= length v <= 16)%nat -> ~ starts_with jcb v ->
        exists n k new, tlv_get_info e 0x84 (Octets v) str = Ret (0, n, k, new) /\ shown str new (lit s)) /\
     ((length v < 5 \/ 16 < length v)%nat \/ starts_with jcb v \/ (forall s, ~ aid_text v s) ->
        exists r n k, r <> 0 /\ tlv_get_info e 0x84 (Octets v) str = Ret (r, n, k, emptied str))).
Proof.
  intros e v str B L. destruct str as [|c t]; [cbn [length] in L; lia|].
  rewrite (info_case e 0x84 _ _ _ v c t ltac:(cbn [In]; intuition lia) eq_refl). cbn [run_action].
  destruct (df_exact v (0 :: t) L) as [A D]. split; [|intros N; rewrite (D N); destruct (aid_string_exact v (0 :: t) ltac:(discriminate)) as [X Y]; split].
  - intros I. destruct (A I) as (new & -> & Sh). cbn [bind]. eauto.
  - intros s T Lv J. destruct (X s T Lv J) as (new & -> & Sh). cbn [bind]. eauto.
  - intros H. destruct (Y H) as (r & R & ->). cbn [bind]. eauto.
Qed.
Print Assumptions C107_df_name_partial.
Example C107_ex : text_of (tlv_get_info ex_env 0x84 (Octets (lit "1PAY.SYS.DDF01")) (repeat 9 20)) = Ret (0, Some "Dedicated File (DF) Name", IsB, Some (lit "1PAY.SYS.DDF01")) /\
  text_of (tlv_get_info ex_env 0x84 (Octets [0xA0;0;0;0;4;0x30;0x60]) (repeat 9 20)) = Ret (0, Some "Dedicated File (DF) Name", IsB, Some (lit "Maestro")).
Proof. split; vm_compute; reflexivity. Qed.

(** C108: JCB applications have no text. *)
Theorem C108_aid_text_refuted : exists aid s str, bytes aid /\ (5 <= length aid <= 16)%nat /\ aid_text aid s /\ (length (lit s) < length str)%nat /\
  exists r, r <> 0 /\ aid_string aid str = Ret (r, str).
Proof.
  exists [0xA0;0;0;0;0x65;0x10;0x10], "JCB", (repeat 9 32). split; [repeat constructor; unfold is_byte; lia|]. split; [cbn; lia|]. split.
  - refine (at_provider _ jcb _ _ _ _); [cbn; tauto|exists [0x10;0x10]; reflexivity|].
    intros q s I S. assert (G : forallb (fun x => negb (prefixb (fst x) [0xA0;0;0;0;0x65;0x10;0x10])) aid_products = true) by (vm_compute; reflexivity).
    rewrite forallb_forall in G. specialize (G _ I). apply FieldsProofs.prefixb_spec in S. cbn [fst] in G. rewrite S in G. discriminate.
  - split; [vm_compute; lia|]. exists (-1). split; [lia|]. vm_compute. reflexivity.
Qed.
Print Assumptions C108_aid_text_refuted.
Theorem C108_aid_text_partial : forall aid str, str <> [] ->
  (forall s, aid_text aid s -> (5 <= length aid <= 16)%nat -> ~ starts_with jcb aid -> exists new, aid_string aid str = Ret (0, new) /\ shown str new (lit s)) /\
  ((length aid < 5 \/ 16 < length aid)%nat \/ starts_with jcb aid \/ (forall s, ~ aid_text aid s) -> exists r, r <> 0 /\ aid_string aid str = Ret (r, str)).
Proof. exact aid_string_exact. Qed.
Print Assumptions C108_aid_text_partial.
Theorem C108_one_text : forall aid s t, aid_text aid s -> aid_text aid t -> s = t.
Proof. exact aid_text_one. Qed.
Print Assumptions C108_one_text.
(** The fields with an AID. *)
Theorem C108_fields_partial : forall e tag v s str, In tag [0x4F; 0x9F06] -> bytes v -> str <> [] -> aid_text v s -> (5 <= length v <= 16)%nat -> ~ starts_with jcb v ->
  exists n new, tlv_get_info e tag (Octets v) str = Ret (0, n, IsB, new) /\ shown str new (lit s).
Proof.
  intros e tag v s str I B NE T L J. destruct str as [|c t]; [contradiction|]. cbn [In] in I.
  destruct (aid_string_exact v (0 :: t) ltac:(discriminate)) as [X _]. destruct (X s T L J) as (new & E & Sh).
  destruct I as [<-|[<-|[]]].
  - rewrite (info_case e 0x4F _ _ _ v c t ltac:(cbn [In]; intuition lia) eq_refl). cbn [run_action octets]. rewrite E. cbn [bind]. eauto.
  - rewrite (info_case e 0x9F06 _ _ _ v c t ltac:(cbn [In]; intuition lia) eq_refl). cbn [run_action octets]. rewrite E. cbn [bind]. eauto.
Qed.
Print Assumptions C108_fields_partial.
Example C108_ex : (let* (r, s) := aid_string [0xA0;0;0;3;0x33;1;1;2] (repeat 9 20) in Ret (r, cstring s)) = Ret (0, Some (lit "UnionPay Credit")) /\
  (let* (r, s) := aid_string [0xA0;0;0;3;0x33;1;1;9] (repeat 9 20) in Ret (r, cstring s)) = Ret (0, Some (lit "UnionPay")) /\
  aid_string [0xA0;0;0;3;0x99;1;1;9] (repeat 9 2) = Ret (-1, [9; 9]) /\ aid_string [0xA0;0;0;0] (repeat 9 2) = Ret (1, [9; 9]).
Proof. repeat split; vm_compute; reflexivity. Qed.

(** C109: 50000000.00 is shown as 705032704 (modulo 2^32). *)
Theorem C109_numeric_value_refuted : exists e tag n v str ds, In (tag, n) numeric_fields /\ bcd v /\ (2 * length v <= n)%nat /\ (n < length str)%nat /\
  decimal (decval v) ds /\ exists name new s, tlv_get_info e tag (Octets v) str = Ret (0, Some name, IsN, new) /\ cstring new = Some s /\ s <> chars ds.
Proof.
  exists ex_env, 0x9F02, 12%nat, [0;0x50;0;0;0;0], (repeat 9 32), [5;0;0;0;0;0;0;0;0;0]. split; [cbn; tauto|].
  split; [repeat constructor; cbn; lia|]. split; [cbn; lia|]. split; [cbn; lia|].
  split; [split; [repeat constructor; lia|]; split; [vm_compute; reflexivity|]; split; [discriminate|discriminate]|].
  do 3 eexists. split; [vm_compute; reflexivity|]. split; [vm_compute; reflexivity|]. vm_compute. discriminate.
Qed.
Print Assumptions C109_numeric_value_refuted.
Theorem C109_numeric_value_partial : forall e tag n v str, In (tag, n) numeric_fields -> bytes v -> v <> [] -> (length v <= (n + 1) / 2)%nat ->
  (11 <= length str)%nat -> (n < length str)%nat ->
  (bcd v -> decval v < 4294967296 ->
     exists name ds new, tlv_get_info e tag (Octets v) str = Ret (0, Some name, IsN, new) /\ decimal (decval v) ds /\ text_in (emptied str) new (chars ds)) /\
  (~ bcd v -> exists r name, r <> 0 /\ tlv_get_info e tag (Octets v) str = Ret (r, Some name, IsN, emptied str)).
Proof. intros e tag n v str. destruct str as [|c t]; [cbn [length]; lia|]. exact (number_field e tag n v c t). Qed.
Print Assumptions C109_numeric_value_partial.
Theorem C109_binary_amounts : forall e tag v str, In tag binary_amounts -> bytes v -> (1 <= length v <= 4)%nat -> (11 <= length str)%nat ->
  exists name ds new, tlv_get_info e tag (Octets v) str = Ret (0, Some name, IsB, new) /\ decimal (be v) ds /\ text_in (emptied str) new (chars ds).
Proof. intros e tag v str. destruct str as [|c t]; [cbn [length]; lia|]. exact (amount_field e tag v c t). Qed.
Print Assumptions C109_binary_amounts.
Example C109_ex : text_of (tlv_get_info ex_env 0x9F02 (Octets [0;0;0;0x12;0x34;0x56]) (repeat 9 20)) = Ret (0, Some "Amount, Authorised (Numeric)", IsN, Some (lit "123456")) /\
  text_of (tlv_get_info ex_env 0x9F02 (Octets [0;0x50;0;0;0;0]) (repeat 9 20)) = Ret (0, Some "Amount, Authorised (Numeric)", IsN, Some (lit "705032704")) /\
  text_of (tlv_get_info ex_env 0x81 (Octets [0;0;4;0xD2]) (repeat 9 20)) = Ret (0, Some "Amount, Authorised (Binary)", IsB, Some (lit "1234")).
Proof. repeat split; vm_compute; reflexivity. Qed.

(** C110: the last four digits of a PAN that begin with 0. *)
Theorem C110_digits_refuted : exists e tag n v str, In (tag, n) digit_fields /\ bcd v /\ (2 * length v = n)%nat /\ (n < length str)%nat /\
  exists name new s, tlv_get_info e tag (Octets v) str = Ret (0, Some name, IsN, new) /\ cstring new = Some s /\ s <> chars (nibbles v).
Proof.
  exists ex_env, 0x9F25, 4%nat, [0x01; 0x23], (repeat 9 32). split; [cbn; tauto|]. split; [repeat constructor; cbn; lia|]. split; [reflexivity|]. split; [cbn; lia|].
  do 3 eexists. split; [vm_compute; reflexivity|]. split; [vm_compute; reflexivity|]. vm_compute. discriminate.
Qed.
Print Assumptions C110_digits_refuted.
Theorem C110_digits_partial : forall e tag n v str, In (tag, n) digit_fields -> bcd v -> v <> [] -> (length v <= (n + 1) / 2)%nat -> hd 0 (nibbles v) <> 0 -> decval v < 4294967296 ->
  (11 <= length str)%nat -> (n < length str)%nat ->
  exists name new, tlv_get_info e tag (Octets v) str = Ret (0, Some name, IsN, new) /\ text_in (emptied str) new (chars (nibbles v)).
Proof. intros e tag n v str. destruct str as [|c t]; [cbn [length]; lia|]. exact (digit_field e tag n v c t). Qed.
Print Assumptions C110_digits_partial.
Example C110_ex : text_of (tlv_get_info ex_env 0x9F25 (Octets [0x41; 0x07]) (repeat 9 20)) = Ret (0, Some "Last 4 Digits of PAN", IsN, Some (lit "4107")) /\
  text_of (tlv_get_info ex_env 0x9F25 (Octets [0x00; 0x07]) (repeat 9 20)) = Ret (0, Some "Last 4 Digits of PAN", IsN, Some (lit "7")).
Proof. split; vm_compute; reflexivity. Qed.

(** C111 *)
Theorem C111_numeric_codes : forall e v str, bytes v -> str <> [] ->
  let text tag o := (numeric_code v -> exists name new, tlv_get_info e tag (Octets v) str = Ret (0, Some name, IsN, new) /\ shown str new (named o)) /\
                    (~ numeric_code v -> exists r name, r <> 0 /\ tlv_get_info e tag (Octets v) str = Ret (r, Some name, IsN, emptied str)) in
  (texts_only (by_numeric e) -> forall tag, In tag country_tags -> text tag (by_numeric e (decval v))) /\
  (texts_only (currency_by e) -> forall tag, In tag currency_tags -> text tag (currency_by e (decval v))) /\
  (texts_only (mcc_by e) -> text 0x9F15 (mcc_by e (decval v))).
Proof. intros e v str B NE. destruct str as [|c t]; [contradiction|]. exact (info_numeric e v c t B). Qed.
Print Assumptions C111_numeric_codes.
Theorem C111_letter_codes : forall e tag n v str, (tag = 0x5F55 /\ n = 2%nat \/ tag = 0x5F56 /\ n = 3%nat) -> texts_only (by_alpha2 e) -> texts_only (by_alpha3 e) ->
  length v = n -> Forall letter v -> (n < length str)%nat ->
  exists name new, tlv_get_info e tag (Octets v) str = Ret (0, Some name, IsA, new) /\
    let found := if tag =? 0x5F55 then by_alpha2 e v else by_alpha3 e v in
    shown str new (match named found with [] => v | s => s end).
Proof. intros e tag n v str H T2 T3 L F Lt. destruct str as [|c t]; [cbn [length] in Lt; lia|]. exact (info_letters e tag n v c t H T2 T3 L F Lt). Qed.
Print Assumptions C111_letter_codes.
Theorem C111_languages : forall e v str, texts_only (language_by e) -> length (j_text e) = 128%nat -> str <> [] -> v <> [] -> Nat.even (length v) = true -> no_nul v ->
  exists name new, tlv_get_info e 0x5F2D (Octets v) str = Ret (0, Some name, IsAN, new) /\
    in_lines (emptied str) new (pairs (fun p => list_text (language_by e (map lower p))) v).
Proof.
  intros e v str T J NE Nv Ev N. destruct str as [|c t]; [contradiction|]. rewrite (info_case e 0x5F2D _ _ _ v c t ltac:(cbn [In]; intuition lia) eq_refl). cbn [run_action octets].
  destruct (language_list_shown e (0 :: t) T J ltac:(discriminate) v Nv Ev N) as (new & -> & I). cbn [bind]. eauto.
Qed.
Print Assumptions C111_languages.
Theorem C111_currencies : forall e str, texts_only (currency_by e) -> length (j_text e) = 128%nat -> str <> [] ->
  let text p := list_text (currency_by e (decval p)) in
  (forall v, v <> [] -> Nat.even (length v) = true -> bcd v ->
     exists name new, tlv_get_info e 0x9F3B (Octets v) str = Ret (0, Some name, IsN, new) /\ in_lines (emptied str) new (pairs text v)) /\
  (forall v a b w, bytes [a; b] -> Nat.even (length (v ++ a :: b :: w)) = true -> Nat.even (length v) = true -> bcd v -> ~ bcd [a; b] ->
     exists r name new, r <> 0 /\ tlv_get_info e 0x9F3B (Octets (v ++ a :: b :: w)) str = Ret (r, Some name, IsN, new) /\ in_lines (emptied str) new (pairs text v)) /\
  (forall v, v = [] \/ Nat.even (length v) = false -> exists r name, r <> 0 /\ tlv_get_info e 0x9F3B (Octets v) str = Ret (r, Some name, IsN, emptied str)).
Proof.
  intros e str T J NE. cbv zeta. destruct str as [|c t]; [contradiction|]. destruct (currency_list_shown e (0 :: t) T J ltac:(discriminate)) as (A & B & C).
  assert (E : forall v, tlv_get_info e 0x9F3B (Octets v) (c :: t) = (let* (r, str) := currency_list e v (0 :: t) in Ret (r, Some "Application Reference Currency", IsN, str)))
    by (intros v; rewrite (info_case e 0x9F3B _ _ _ v c t ltac:(cbn [In]; intuition lia) eq_refl); reflexivity).
  split; [|split].
  - intros v Nv Ev D. rewrite E. destruct (A v Nv Ev D) as (new & -> & I). cbn [bind]. eauto.
  - intros v a b w Bab E1 E2 D N. rewrite E. destruct (B v a b w Bab E1 E2 D N) as (r & new & R & -> & I). cbn [bind]. eauto 6.
  - intros v H. rewrite E. destruct (C v H) as (r & R & ->). cbn [bind]. eauto.
Qed.
Print Assumptions C111_currencies.
Example C111_ex : text_of (tlv_get_info ex_env 0x9F1A (Octets [0x05; 0x28]) (repeat 9 20)) = Ret (0, Some "Terminal Country Code", IsN, Some (lit "Netherlands")) /\
  text_of (tlv_get_info ex_env 0x9F1A (Octets [0x05; 0x2A]) (repeat 9 20)) = Ret (2, Some "Terminal Country Code", IsN, Some []) /\
  text_of (tlv_get_info ex_env 0x5F55 (Octets (lit "XK")) (repeat 9 20)) = Ret (0, Some "Issuer Country Code (alpha2 format)", IsA, Some (lit "XK")) /\
  text_of (tlv_get_info ex_env 0x5F56 (Octets (lit "NLD")) (repeat 9 6)) = Ret (0, Some "Issuer Country Code (alpha3 format)", IsA, Some (lit "Nethe")) /\
  text_of (tlv_get_info ex_env 0x5F2D (Octets (lit "NLenxx")) (repeat 9 40)) =
    Ret (0, Some "Language Preference", IsAN, Some (lit "Dutch" ++ [10] ++ lit "English" ++ [10] ++ lit "Unknown" ++ [10])) /\
  text_of (tlv_get_info ex_env 0x9F3B (Octets [0x09; 0x78; 0x08; 0x40; 0x08; 0x4F]) (repeat 9 40)) =
    Ret (2, Some "Application Reference Currency", IsN, Some (lit "Euro" ++ [10] ++ lit "US Dollar" ++ [10])).
Proof. repeat split; vm_compute; reflexivity. Qed.
