(** Proofs for CVM lists, issuer data, third party data and response codes. *)
From Coq Require Import String.
From Verif Require Import Base BaseLemmas StrModel CapduModel FieldsModel FlagsModel TlvSpec BerSpec FieldsSpec StrSpec CapduSpec
  FlagsSpec StrProofs CapduProofs FieldsProofs PcscProofs FlagsProofs FlagsTexts.
Open Scope string_scope.
Open Scope Z_scope.
Open Scope list_scope.
Notation length := List.length.

(** ** CVM lists and results *)
Lemma p_s_cstring a c : cstring a = Some c -> p_s a = Ret c.
Proof.
  revert c. induction a as [|x a IH]; intros c H; [discriminate|]. cbn [cstring p_s] in *. destruct (x =? 0); [congruence|].
  destruct (cstring a) as [s|]; [|discriminate]. injection H as <-. rewrite (IH s eq_refl). reflexivity.
Qed.
Definition ok_text (n : nat) (s : list Z) : bool := forallb (fun c => negb (c =? 0)) s && (length s <? n)%nat.
Lemma shown_p_s junk new s : shown junk new s -> (length s < length junk)%nat -> p_s new = Ret s.
Proof. intros (_ & C) L. rewrite firstn_all2 in C by lia. apply p_s_cstring, C. Qed.

Lemma cvm_code_name b : is_byte b -> cvm_code_text b = lit (cvm_name b).
Proof.
  intros B.
  pose proof (byte_sweep (fun b => ll_eqb [cvm_code_text b] [lit (cvm_name b)]) ltac:(vm_compute; reflexivity) b B) as Q. cbn beta in Q.
  apply ll_eqb_eq in Q. congruence.
Qed.
Definition plain_ok (b : Z) : bool :=
  ok_text 100 (lit (pick b cvm_cond_codes "Unknown condition")) &&
  ll_eqb [lit (pick b cvm_cond_codes "Unknown condition")] [cond_words b (lit "X") (lit "Y")].
Lemma plain_sweep b : is_byte b -> plain_ok b = true.
Proof. apply byte_sweep. vm_compute. reflexivity. Qed.
Lemma cond_none b junk : is_byte b -> length junk = 128%nat ->
  exists new, cvm_cond b None junk = Ret new /\ p_s new = Ret (cond_words b (lit "X") (lit "Y")).
Proof.
  intros B L. pose proof (plain_sweep b B) as Q. unfold plain_ok, ok_text in Q. apply andb_prop in Q as [Q E]. apply andb_prop in Q as [N Q].
  apply Nat.ltb_lt in Q. apply ll_eqb_eq in E. apply (f_equal (fun l => hd [] l)) in E. cbn [hd] in E. unfold cvm_cond.
  destruct (say_n_shown junk (lit (pick b cvm_cond_codes "Unknown condition"))) as (new & En & S).
  { intros ->. discriminate. } { apply nz_lit, N. }
  exists new. split; [exact En|]. rewrite <- E. apply (shown_p_s _ _ _ S). lia.
Qed.
Lemma cond_some b x y junk : is_byte b -> 0 <= x < 4294967296 -> 0 <= y < 4294967296 -> length junk = 128%nat ->
  exists new, cvm_cond b (Some (x, y)) junk = Ret new /\ p_s new = Ret (cond_words b (decimal_text x) (decimal_text y)).
Proof.
  intros B X Y L. assert (NE : junk <> []) by (intros ->; discriminate). unfold cvm_cond. rewrite !p_dec_text by lia.
  assert (G : forall w v, nz (lit w) -> (length (lit w) <= 10)%nat -> 0 <= v < 4294967296 -> exists new,
    snprintf junk 0 (length junk) (lit "If transaction is in the application currency and is " ++ lit w ++ decimal_text v ++ lit " value") = Ret new /\
    p_s new = Ret (lit "If transaction is in the application currency and is " ++ lit w ++ decimal_text v ++ lit " value")).
  { intros w v Nw Lw V. destruct (snprintf_shown junk (lit "If transaction is in the application currency and is " ++ lit w ++ decimal_text v ++ lit " value") NE) as (new & En & S);
      [|exists new; split; [exact En|apply (shown_p_s _ _ _ S)]].
    - apply nz_app; [apply nz_lit; vm_compute; reflexivity|]. apply nz_app; [exact Nw|]. apply nz_app; [apply decimal_text_nz; lia|apply nz_lit; vm_compute; reflexivity].
    - rewrite !app_length. pose proof (decimal_text_len v ltac:(lia)). assert (E1 : length (lit "If transaction is in the application currency and is ") = 53%nat) by reflexivity.
      assert (E2 : length (lit " value") = 6%nat) by reflexivity. rewrite E1, E2, L. lia. }
  assert (Nu : nz (lit "under ")) by (apply nz_lit; vm_compute; reflexivity). assert (No : nz (lit "over ")) by (apply nz_lit; vm_compute; reflexivity).
  destruct (Z.eqb_spec b 6) as [->|H6]; [apply G; [exact Nu|cbn; lia|exact X]|].
  destruct (Z.eqb_spec b 7) as [->|H7]; [apply G; [exact No|cbn; lia|exact X]|].
  destruct (Z.eqb_spec b 8) as [->|H8]; [apply G; [exact Nu|cbn; lia|exact Y]|].
  destruct (Z.eqb_spec b 9) as [->|H9]; [apply G; [exact No|cbn; lia|exact Y]|].
  destruct (cond_none b junk B L) as (new & En & P). exists new. split; [exact En|]. rewrite P. f_equal. unfold cond_words.
  destruct ((6 <=? b) && (b <=? 9)) eqn:R; [lia|reflexivity].
Qed.
Lemma mask7 b : is_byte b -> negb (Z.land b 0x40 =? 0) = bit b 7.
Proof. intros B. apply Bool.eqb_prop. revert b B. apply byte_sweep. vm_compute. reflexivity. Qed.
Lemma cvm_texts_ok x y junk : 0 <= x < 4294967296 -> 0 <= y < 4294967296 -> length junk = 128%nat ->
  forall rules fuel, Forall (fun r => is_byte (fst r) /\ is_byte (snd r)) rules -> (length rules < fuel)%nat ->
  cvm_texts fuel (x, y) junk (flat_map (fun r => [fst r; snd r]) rules) = Ret (0, map (rule_line x y) rules).
Proof.
  intros X Y L. induction rules as [|[a b] rules IH]; intros fuel F Hf; (destruct fuel as [|fuel]; [lia|]); cbn [length] in Hf; [reflexivity|].
  apply Forall_cons_iff in F as [[Ba Bb] F]. cbn [fst snd] in Ba, Bb.
  cbn [cvm_texts flat_map fst snd app]. unfold cvmlist_itr_next. cbn [length Nat.eqb].
  set (tl := flat_map (fun r : Z * Z => [fst r; snd r]) rules).
  assert (Ev : Z.land (Zlen (a :: b :: tl)) 1 = 0).
  { rewrite land1. unfold Zlen. cbn [length]. assert (El : length tl = (2 * length rules)%nat).
    { unfold tl. clear. induction rules as [|r l IH]; [reflexivity|]. cbn [flat_map length app]. rewrite IH. lia. }
    rewrite El. replace (Z.of_nat (Datatypes.S (Datatypes.S (2 * length rules)))) with ((Z.of_nat (length rules) + 1) * 2) by lia. apply Z.mod_mul. lia. }
  rewrite Ev. cbn [Z.eqb negb rd nth_error bind skipn].
  destruct (cond_some b x y junk Bb X Y L) as (new & -> & P). cbn [bind]. rewrite P. cbn [bind].
  unfold tl. rewrite (IH fuel F ltac:(lia)). cbn [bind map]. f_equal. f_equal. f_equal. unfold rule_line. cbn [fst snd].
  rewrite cvm_code_name, mask7 by exact Ba. destruct (bit a 7); reflexivity.
Qed.
Lemma rule_line_ne x y r : rule_line x y r <> [].
Proof.
  unfold rule_line. intros E. apply app_eq_nil in E as [_ E]. discriminate.
Qed.
Lemma cvm_list_exact junk l str : bytes l -> str <> [] -> length junk = 128%nat ->
  (exists r, cvm_list_list junk l str = Ret (r, str) /\ r <> 0 /\ (Zlen l mod 2 <> 0 \/ Zlen l < 10 \/ 252 < Zlen l)) \/
  (exists x y rules new, l = x ++ y ++ flat_map (fun r => [fst r; snd r]) rules /\ length x = 4%nat /\ length y = 4%nat /\
     (1 <= length rules)%nat /\ cvm_list_list junk l str = Ret (0, new) /\ in_lines str new (map (rule_line (be x) (be y)) rules)).
Proof.
  intros B S L. unfold cvm_list_list. rewrite (Zlen_pos str S). rewrite Bool.orb_false_r.
  destruct (Z.eqb_spec (Zlen l) 0) as [Z0|Z0].
  { left. exists (-1). split; [reflexivity|]. split; [lia|]. right; left; lia. }
  destruct (cvm_init_spec l B) as [(r & E & R & C)|(x & y & rest & E & Lx & Ly & M & R & I)].
  - left. rewrite E. cbn [bind]. exists r. split; [reflexivity|]. split; assumption.
  - right. rewrite I. cbn [bind].
    assert (Lr : Zlen l = 8 + Zlen rest) by (rewrite E, !Zlen_app; unfold Zlen; rewrite Lx, Ly; lia).
    destruct (pairs_of rest ltac:(lia)) as [rules Hr].
    rewrite E in B. apply bytes_app in B as [Bx B]. apply bytes_app in B as [By Br].
    assert (Fr : Forall (fun r => is_byte (fst r) /\ is_byte (snd r)) rules).
    { rewrite Hr in Br. clear - Br. induction rules as [|[a b] rules IH]; [constructor|]. cbn [flat_map app fst snd] in Br.
      apply Forall_cons_iff in Br as [Ba Br]. apply Forall_cons_iff in Br as [Bb Br]. constructor; [split; assumption|apply IH, Br]. }
    assert (El : length rest = (2 * length rules)%nat).
    { rewrite Hr. clear. induction rules as [|r l IH]; [reflexivity|]. cbn [flat_map length app]. rewrite IH. lia. }
    rewrite Hr. rewrite cvm_texts_ok; [|apply be4_range; [exact Bx|lia]|apply be4_range; [exact By|lia]|exact L|exact Fr|unfold Zlen in *; lia].
    cbn [bind]. destruct (emit_listed 0 (map (rule_line (be x) (be y)) rules) str) as (new & En & Ln).
    { apply Forall_map. apply Forall_forall. intros r _. apply rule_line_ne. }
    exists x, y, rules, new. split; [rewrite E, Hr; reflexivity|]. split; [exact Lx|]. split; [exact Ly|]. split; [unfold Zlen in *; lia|]. split; [exact En|exact Ln].
Qed.
Lemma cvm_results_exact junk a b c str : is_byte a -> is_byte b -> is_byte c -> str <> [] -> length junk = 128%nat ->
  exists new, cvm_results_list junk [a; b; c] str = Ret (0, new) /\ in_lines str new (cvm_results_lines a b c).
Proof.
  intros Ba Bb Bc S L. unfold cvm_results_list. rewrite (Zlen_pos str S). change (Zlen [a; b; c]) with 3. cbn [Z.eqb Pos.eqb negb rd nth_error bind].
  destruct (cond_none b junk Bb L) as (new & -> & P). cbn [bind]. rewrite P. cbn [bind].
  unfold is_byte in Bc. rewrite (p_dec_text c) by lia. rewrite cvm_code_name by exact Ba.
  replace (if a =? 63 then lit "CVM not performed" else lit (cvm_name a)) with (lit (if a =? 63 then "CVM not performed" else cvm_name a)) by (destruct (a =? 63); reflexivity).
  apply emit_listed. unfold full. repeat (constructor; [discriminate|]). constructor.
Qed.

(** ** Issuer application data *)
Lemma rd_nth (v : list Z) k : (k < length v)%nat -> rd v k = Ret (nth k v 0).
Proof. intros H. apply rd_Ret. apply nth_error_nth'. exact H. Qed.
Definition T_ccd_code : list row :=
  T_ccd_before ++ Any [(6, [6])] "Card Verification Results (CVR): Upper Cumulative Offline Amount Limit Exceeded" "" :: T_ccd_after.
Lemma octet_nth v n : octet v n = nth (Z.to_nat (n - 1)) v 0.
Proof. reflexivity. Qed.
Lemma ccd_run iad : bytes iad -> length iad = 32%nat -> nth 0 iad 0 = 0x0F -> nth 1 iad 0 = 0xA5 \/ nth 1 iad 0 = 0xA6 -> nth 16 iad 0 = 0x0F ->
  FlagsModel.iad_ccd iad = Ret (0, table_texts T_ccd_code iad).
Proof.
  intros B L N0 N1 N16. unfold FlagsModel.iad_ccd, Zlen. rewrite !rd_nth by lia. rewrite L, N0, N16. cbn [Z.of_nat]. change (Z.of_nat 32) with 32.
  cbn [Z.eqb Pos.eqb negb bind].
  assert (P : run iad iad_ccd_prog = Ret (table_texts (tl T_ccd_code) iad)).
  { apply (prog_run 8); [exact B|unfold Zlen; lia|vm_compute; reflexivity]. }
  rewrite P. cbn [bind].
  change (table_texts T_ccd_code iad) with (said (chosen (range (nth 1 iad 0) 4 1) [(5, "Cryptogram Version: TDES"); (6, "Cryptogram Version: AES")] "") ++ table_texts (tl T_ccd_code) iad).
  destruct N1 as [-> | ->]; reflexivity.
Qed.
Lemma ccd_same iad : bit (octet iad 6) 6 = bit (octet iad 6) 5 -> table_texts T_ccd_code iad = table_texts T_ccd iad.
Proof.
  intros E. unfold T_ccd_code, T_ccd. rewrite !table_app. f_equal. unfold table_texts. cbn [flat_map]. f_equal.
  unfold T_ccd_upper. cbn [row_texts existsb fst snd]. rewrite E. reflexivity.
Qed.
Lemma mchip_run four iad : bytes iad -> (if four : bool then length iad = 18%nat else In (length iad) [20; 26; 28]%nat) ->
  In (nth 1 iad 0) [0x10; 0x11; 0x14; 0x15] -> iad_mchip iad = Ret (0, table_texts (T_mchip four) iad).
Proof.
  intros B L N.
  assert (L18 : (18 <= length iad)%nat) by (destruct four; [lia|cbn in L; lia]).
  assert (A : run iad iad_mchip_a_prog = Ret (table_texts T_mchip_a iad)) by (apply (prog_run 8); [exact B|unfold Zlen; lia|vm_compute; reflexivity]).
  assert (Q : run iad (if Zlen iad =? 18 then iad_mchip_b4_prog else iad_mchip_badv_prog) = Ret (table_texts (T_mchip_limits four) iad)).
  { destruct four.
    - unfold Zlen. rewrite L. change (Z.of_nat 18 =? 18) with true. cbn [bind]. apply (prog_run 8); [exact B|unfold Zlen; lia|vm_compute; reflexivity].
    - assert (E : Zlen iad =? 18 = false) by (unfold Zlen; cbn in L; lia). rewrite E. apply (prog_run 8); [exact B|unfold Zlen; lia|vm_compute; reflexivity]. }
  assert (C : run iad iad_mchip_c_prog = Ret (table_texts T_mchip_c iad)) by (apply (prog_run 8); [exact B|unfold Zlen; lia|vm_compute; reflexivity]).
  unfold iad_mchip. rewrite A, Q, C.
  assert (LE : negb ((Zlen iad =? 18) || (Zlen iad =? 20) || (Zlen iad =? 26) || (Zlen iad =? 28)) = false).
  { unfold Zlen. destruct four; [rewrite L; reflexivity|]. cbn in L. lia. }
  rewrite LE. rewrite !rd_nth by lia. cbn [bind].
  unfold T_mchip. rewrite !table_app.
  assert (H : table_texts T_mchip_head iad = [lit "Derivation Key Index (DKI): " ++ p_02X (nth 0 iad 0); lit "Cryptogram Version Number (CVN): " ++ p_02X (nth 1 iad 0)] ++
    said (chosen (range (nth 1 iad 0) 3 2) [(0, "Cryptogram: Mastercard Proprietary SKD session key"); (2, "Cryptogram: EMV CSK session key")] "")).
  { unfold T_mchip_head, table_texts. cbn [flat_map row_texts orb]. rewrite !octet_nth. cbn [Z.to_nat Z.sub Z.add Z.opp Z.pos_sub Pos.to_nat Pos.pred_double].
    change (Z.to_nat (1 - 1)) with 0%nat. change (Z.to_nat (2 - 1)) with 1%nat.
    assert (R : forall b, is_byte b -> range b 8 1 = b) by (intros b Bb; unfold range; cbn; rewrite Z.div_1_r; apply Z.mod_small; exact Bb).
    rewrite !R by (exact (octet_byte iad 1 B) || exact (octet_byte iad 2 B)).
    rewrite <- !hex2_02X by (exact (octet_byte iad 1 B) || exact (octet_byte iad 2 B)). change (lit "") with (@nil Z). rewrite !app_nil_r. reflexivity. }
  rewrite H. cbn [In] in N. destruct N as [N|[N|[N|[N|[]]]]]; rewrite <- N; cbn [bind]; rewrite <- ?app_assoc; reflexivity.
Qed.
Lemma vsdc_013_run iad : bytes iad -> (7 <= length iad)%nat -> nth 0 iad 0 = 6 -> nth 3 iad 0 = 3 -> In (high_nibble (nth 2 iad 0)) [0; 1; 3] ->
  iad_vsdc_013 iad = Ret (0, table_texts T_vsdc_013 iad).
Proof.
  intros B L N0 N3 N2. unfold iad_vsdc_013, Zlen. rewrite !rd_nth by lia. destruct (Z.ltb_spec (Z.of_nat (length iad)) 7); [lia|].
  rewrite N0, N3. cbn [bind Z.eqb Pos.eqb negb].
  assert (Bc : is_byte (nth 2 iad 0)) by exact (octet_byte iad 3 B).
  assert (F : Z.shiftr (Z.land (nth 2 iad 0) 0xF0) 4 = high_nibble (nth 2 iad 0)).
  { apply Z.eqb_eq. revert Bc. generalize (nth 2 iad 0). apply byte_sweep. vm_compute. reflexivity. }
  rewrite F. rewrite (prog_run 7 iad iad_vsdc_013_prog T_vsdc_013 B) by first [solve [vm_compute; reflexivity] | unfold Zlen; lia]. cbn [bind].
  cbn [In] in N2. destruct N2 as [N2|[N2|[N2|[]]]]; rewrite <- N2; reflexivity.
Qed.
Lemma vsdc_24_run iad : bytes iad -> length iad = 32%nat -> nth 0 iad 0 = 0x1F -> high_nibble (nth 8 iad 0) = 0 -> In (high_nibble (nth 1 iad 0)) [2; 4] ->
  iad_vsdc_24 iad = Ret (0, table_texts T_vsdc_24 iad).
Proof.
  intros B L N0 N8 N1. unfold iad_vsdc_24, Zlen. rewrite !rd_nth by lia. rewrite L, N0. change (Z.of_nat 32) with 32. cbn [bind Z.eqb Pos.eqb negb].
  assert (Bc : is_byte (nth 1 iad 0)) by exact (octet_byte iad 2 B). assert (Bo : is_byte (nth 8 iad 0)) by exact (octet_byte iad 9 B).
  assert (F : Z.shiftr (Z.land (nth 1 iad 0) 0xF0) 4 = high_nibble (nth 1 iad 0)).
  { apply Z.eqb_eq. revert Bc. generalize (nth 1 iad 0). apply byte_sweep. vm_compute. reflexivity. }
  assert (G : Z.land (nth 8 iad 0) 0xF0 =? 0 = (high_nibble (nth 8 iad 0) =? 0)).
  { apply Bool.eqb_prop. revert Bo. generalize (nth 8 iad 0). apply (byte_sweep (fun b => Bool.eqb (Z.land b 0xF0 =? 0) (high_nibble b =? 0))). vm_compute. reflexivity. }
  rewrite F, G, N8. rewrite (prog_run 8 iad iad_vsdc_24_prog T_vsdc_24 B) by first [solve [vm_compute; reflexivity] | unfold Zlen; lia]. cbn [bind Z.eqb negb].
  cbn [In] in N1. destruct N1 as [N1|[N1|[]]]; rewrite <- N1; reflexivity.
Qed.
Lemma full_cons x l : x <> [] -> full l -> full (x :: l).
Proof. intros; constructor; assumption. Qed.
Lemma iad_listed f iad str : bytes iad -> (length iad <= 32)%nat -> str <> [] -> iad_is f iad ->
  f <= 3 \/ (forall g, g <= 3 -> ~ iad_is g iad) -> f <> IAD_CCD \/ bit (octet iad 6) 6 = bit (octet iad 6) 5 ->
  exists new, iad_list iad str = Ret (0, new) /\ in_lines str new (iad_texts f iad).
Proof.
  intros B L S I P C. unfold iad_list. rewrite (Zlen_pos str S).
  destruct (iad_exact iad B) as (r & E & R & _). rewrite E. cbn [bind]. rewrite (R f I P). clear R E r P.
  assert (NE : iad <> []) by (intros ->; inversion I; subst; cbn in *; lia). rewrite (Zlen_pos iad NE).
  destruct (Zlen iad >? 32) eqn:G; [unfold Zlen in G; lia|].
  inversion I as [i L0 N0 N1 N16|i L0 N1|i L0 N1|i L0 N0 N3 N2|i L0 N0 N3 N2|i L0 N0 N3 N2|i L0 N0 N8 N1|i L0 N0 N8 N1]; subst i f;
    cbn [Z.eqb IAD_CCD IAD_MCHIP4 IAD_MCHIP_ADVANCE IAD_VSDC_0 IAD_VSDC_1 IAD_VSDC_2 IAD_VSDC_3 IAD_VSDC_4 IAD_INVALID Pos.eqb]; unfold iad_texts;
    cbn [Z.eqb IAD_CCD IAD_MCHIP4 IAD_MCHIP_ADVANCE IAD_VSDC_0 IAD_VSDC_1 IAD_VSDC_2 IAD_VSDC_3 IAD_VSDC_4 IAD_INVALID Pos.eqb].
  - rewrite ccd_run by assumption. destruct C as [C|C]; [contradiction|]. rewrite (ccd_same iad C). cbn [bind]. apply emit_listed.
    apply full_cons; [discriminate|]. apply full_cons; [discriminate|]. apply full_table. reflexivity.
  - rewrite (mchip_run true) by assumption. cbn [bind]. apply emit_listed. apply full_cons; [discriminate|]. apply full_table. reflexivity.
  - rewrite (mchip_run false) by assumption. cbn [bind]. apply emit_listed. apply full_cons; [discriminate|]. apply full_table. reflexivity.
  - rewrite vsdc_013_run; [|assumption..|rewrite N2; cbn; tauto]. cbn [bind]. apply (emit_listed 0 (_ :: _ :: _)).
    apply full_cons; [discriminate|]. apply full_cons; [discriminate|]. apply full_table. reflexivity.
  - rewrite vsdc_013_run; [|assumption..|rewrite N2; cbn; tauto]. cbn [bind]. apply (emit_listed 0 (_ :: _ :: _)).
    apply full_cons; [discriminate|]. apply full_cons; [discriminate|]. apply full_table. reflexivity.
  - rewrite vsdc_013_run; [|assumption..|rewrite N2; cbn; tauto]. cbn [bind]. apply (emit_listed 0 (_ :: _ :: _)).
    apply full_cons; [discriminate|]. apply full_cons; [discriminate|]. apply full_table. reflexivity.
  - rewrite vsdc_24_run; [|assumption..|rewrite N1; cbn; tauto]. cbn [bind]. apply (emit_listed 0 (_ :: _ :: _)).
    apply full_cons; [discriminate|]. apply full_cons; [discriminate|]. apply full_table. reflexivity.
  - rewrite vsdc_24_run; [|assumption..|rewrite N1; cbn; tauto]. cbn [bind]. apply (emit_listed 0 (_ :: _ :: _)).
    apply full_cons; [discriminate|]. apply full_cons; [discriminate|]. apply full_table. reflexivity.
Qed.
Lemma iad_unlisted iad str : bytes iad -> (1 <= length iad <= 32)%nat -> str <> [] -> (forall g, ~ iad_is g iad) ->
  exists new, (iad_bad_vsdc iad -> iad_list iad str = Ret (-1, new) /\ in_lines str new [lit "Invalid IAD format"]) /\
              (~ iad_bad_vsdc iad -> iad_list iad str = Ret (0, new) /\ in_lines str new [lit "Unknown IAD format"]).
Proof.
  intros B L S N. unfold iad_list. rewrite (Zlen_pos str S).
  assert (NE : iad <> []) by (intros ->; cbn in L; lia). rewrite (Zlen_pos iad NE).
  destruct (Zlen iad >? 32) eqn:G; [unfold Zlen in G; lia|].
  destruct (iad_exact iad B) as (r & E & _ & R1 & R2 & _). rewrite E. cbn [bind].
  destruct (emit_listed (-1) [lit "Invalid IAD format"] str) as (n1 & E1 & L1); [apply full_one; discriminate|].
  destruct (emit_listed 0 [lit "Unknown IAD format"] str) as (n2 & E2 & L2); [apply full_one; discriminate|].
  destruct (Z.eq_dec r IAD_INVALID) as [->|D].
  - exists n1. split; [intros _; split; [exact E1|exact L1]|]. intros D. specialize (R2 NE D N). discriminate.
  - exists n2. split; [intros D'; specialize (R1 D' N); contradiction|]. intros D'. specialize (R2 NE D' N). subst r. split; [exact E2|exact L2].
Qed.
