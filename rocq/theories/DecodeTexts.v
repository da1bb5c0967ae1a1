(** Proofs about the codes and texts emv-decode looks up. *)
From Coq Require Import String.
From Verif Require Import Base BaseLemmas BerModel TlvModel StrModel CapduModel FieldsModel FlagsModel AtrModel Iso8859Model InfoModel ToolsModel PrintModel BerTextModel DecodeModel
  TlvSpec BerSpec FieldsSpec StrSpec CapduSpec FlagsSpec InfoSpec ToolsSpec Iso8859Spec DecodeSpec
  StrProofs CapduProofs FieldsProofs FlagsProofs FlagsTexts FlagsProps InfoTexts PrintProofs PrintProps Iso8859Props ToolsProps DecodeProofs.
Open Scope string_scope.
Open Scope Z_scope.
Open Scope list_scope.
Notation length := List.length.

(** ** Codes *)
Lemma digit_char d : 0 <= d <= 9 -> (0x30 <=? 48 + d) && (48 + d <=? 0x39) = true /\ is_space (48 + d) = false /\ 48 + d <> 0x2D /\ 48 + d <> 0x2B.
Proof. intros R. unfold is_space. repeat split; lia. Qed.
Lemma strtoul_digits a b d : digits [a; b; d] -> strtoul10 (chars [a; b; d]) = (number [a; b; d], []).
Proof.
  intros D. inversion D as [|? ? Ra D1]; subst. inversion D1 as [|? ? Rb D2]; subst. inversion D2 as [|? ? Rd _]; subst.
  destruct (digit_char a Ra) as (A1 & A2 & A3 & A4). destruct (digit_char b Rb) as (B1 & _). destruct (digit_char d Rd) as (C1 & _).
  unfold strtoul10, chars. cbn [map skip_space]. rewrite A2. destruct (Z.eqb_spec (48 + a) 0x2D); [contradiction|]. destruct (Z.eqb_spec (48 + a) 0x2B); [contradiction|].
  rewrite A1. cbn [dec_digits]. rewrite A1, B1, C1. unfold number. cbn [fold_left]. unfold u32. rewrite Z.mod_small by lia. f_equal. lia.
Qed.
Lemma strtoul_letter c s : ~ number_start c -> strtoul10 (c :: s) = (0, c :: s).
Proof.
  intros N. unfold number_start, space in N. cbn [In] in N. unfold strtoul10. cbn [skip_space]. replace (is_space c) with false by (unfold is_space; lia).
  destruct (Z.eqb_spec c 0x2D); [lia|]. destruct (Z.eqb_spec c 0x2B); [lia|]. replace ((0x30 <=? c) && (c <=? 0x39)) with false by lia. reflexivity.
Qed.
Lemma number_found a b d look invalid : digits [a; b; d] ->
  by_number (chars [a; b; d]) look invalid = match look (number [a; b; d]) with Some s => Ret (s ++ newline, []) | None => complains "Unknown" end.
Proof. intros D. unfold by_number. rewrite strtoul_digits by exact D. cbn [chars map]. destruct (look _); reflexivity. Qed.
Lemma number_letters c s look invalid : ~ number_start c -> by_number (c :: s) look invalid = complains invalid.
Proof. intros N. unfold by_number. rewrite strtoul_letter by exact N. reflexivity. Qed.
Lemma number_empty look invalid : by_number [] look invalid = complains invalid. Proof. reflexivity. Qed.

(** ** ISO 8859-1 *)
Lemma loop_first iso : forall buf idx r b, (1 <= idx)%nat -> utf8_loop iso buf idx = Ret (r, b) -> nth_error b 0 = nth_error buf 0.
Proof.
  assert (W : forall (buf : list Z) i x b, (1 <= i)%nat -> wr buf i x = Ret b -> nth_error b 0 = nth_error buf 0).
  { intros buf i x b Li E. unfold wr in E. destruct (i <? length buf)%nat; [|discriminate]. injection E as <-. destruct buf as [|y buf], i as [|i]; try lia; reflexivity. }
  induction iso as [|c iso IH]; intros buf idx r b Li E; cbn [utf8_loop] in E.
  - destruct (wr buf idx 0) as [b1| |] eqn:E1; try discriminate. cbn [bind] in E. injection E as <- <-. eapply W; eauto.
  - destruct (c =? 0). { destruct (wr buf idx 0) as [b1| |] eqn:E1; try discriminate. cbn [bind] in E. injection E as <- <-. eapply W; eauto. }
    destruct (length buf - idx <? 2)%nat. { destruct (wr buf idx 0) as [b1| |] eqn:E1; try discriminate. cbn [bind] in E. injection E as <- <-. eapply W; eauto. }
    destruct ((c <? 0x20) || ((c >? 0x7E) && (c <? 0xA0))); [injection E as <- <-; reflexivity|].
    destruct (c <? 0x80).
    + destruct (wr buf idx c) as [b1| |] eqn:E1; try discriminate. cbn [bind] in E. rewrite (IH b1 _ r b (le_S _ _ Li) E). eapply W; eauto.
    + destruct (wr buf idx _) as [b1| |] eqn:E1; try discriminate. cbn [bind] in E. destruct (wr b1 _ _) as [b2| |] eqn:E2; try discriminate. cbn [bind] in E.
      rewrite (IH b2 _ r b (le_S _ _ (le_S _ _ Li)) E). rewrite (W _ _ _ _ (le_S _ _ Li) E2). eapply W; eauto.
Qed.
Lemma wr_zero (buf : list Z) x : buf <> [] -> exists t, wr buf 0 x = Ret (x :: t) /\ length (x :: t) = length buf.
Proof. intros NE. destruct buf as [|y buf]; [contradiction|]. exists buf. split; reflexivity. Qed.
Lemma first_kept d iso (buf : list Z) r b : graphic d -> (2 <= length buf)%nat -> iso8859_to_utf8 1 (d :: iso) buf = Ret (r, b) -> exists x, rd b 0 = Ret x /\ x <> 0.
Proof.
  intros G L E. unfold iso8859_to_utf8 in E. cbn [length Nat.eqb orb] in E. destruct (Nat.eqb_spec (length buf) 0); [lia|].
  destruct (wr_zero buf 0 ltac:(intros ->; cbn in L; lia)) as (t & E0 & Lt). rewrite E0 in E. cbn [bind iso8859_is_supported Z.eqb Pos.eqb negb] in E. cbn [utf8_loop] in E.
  unfold graphic in G. destruct (Z.eqb_spec d 0); [lia|]. rewrite Lt in E. destruct (Nat.ltb_spec (length buf - 0) 2); [lia|].
  replace ((d <? 0x20) || ((d >? 0x7E) && (d <? 0xA0))) with false in E by lia.
  destruct (Z.ltb_spec d 0x80).
  - change (wr (0 :: t) 0 d) with (Ret (d :: t)) in E. cbn [bind] in E. pose proof (loop_first _ _ 1 _ _ (le_n 1) E) as F. change (nth_error (d :: t) 0) with (Some d) in F. exists d. unfold rd. rewrite F. split; [reflexivity|lia].
  - change (wr (0 :: t) 0 (Z.lor 192 (Z.shiftr d 6))) with (Ret (Z.lor 192 (Z.shiftr d 6) :: t)) in E. cbn [bind] in E.
    destruct (wr (Z.lor 192 (Z.shiftr d 6) :: t) 1 _) as [b2| |] eqn:E2; try discriminate. cbn [bind] in E. pose proof (loop_first _ _ 2 _ _ ltac:(lia) E) as F.
    assert (F2 : nth_error b2 0 = Some (Z.lor 192 (Z.shiftr d 6))).
    { unfold wr in E2. destruct (1 <? length (Z.lor 192 (Z.shiftr d 6) :: t))%nat; [|discriminate]. injection E2 as <-. destruct t; reflexivity. }
    rewrite F2 in F. exists (Z.lor 192 (Z.shiftr d 6)). unfold rd. rewrite F. split; [reflexivity|].
    intros Q. apply Z.lor_eq_0_iff in Q as [Q _]. discriminate.
Qed.
Lemma page_1 data : iso8859_mode 1 data =
  (let* (r, utf8) := iso8859_to_utf8 1 data (repeat 0 2048) in
   let* c := rd utf8 0 in
   if negb (r =? 0) && negb (c =? 0) then Ret ([], lit "iso8859_to_utf8() failed; r=" ++ p_int r ++ newline)
   else let* s := p_s utf8 in prints (s ++ newline)).
Proof. reflexivity. Qed.
Lemma iso_printed cs tail u : Forall graphic cs -> (1 <= length (cs ++ tail))%nat -> tail = [] \/ (exists t, tail = 0 :: t) -> utf8_text cs u -> (length u < 2048)%nat ->
  iso8859_mode 1 (cs ++ tail) = Ret (u ++ newline, []).
Proof.
  intros G L T U F. rewrite page_1.
  assert (N : nz u).
  { clear -G U. induction U as [|c l cs ls Hc Hs IH]; [constructor|]. inversion G; subst. apply nz_app; [|apply IH; assumption]. unfold graphic in *.
    clear IH G Hs. destruct Hc as [c R|c hi lo R Hhi Hlo Hq]; [constructor; [lia|constructor]|constructor; [lia|constructor; [lia|constructor]]]. }
  rewrite (C47_utf8_exact cs tail (repeat 0 2048) u G L T U) by (rewrite repeat_length; exact F). cbn [bind].
  assert (R : exists x, rd (u ++ 0 :: skipn (Datatypes.S (length u)) (repeat 0 2048)) 0 = Ret x) by (destruct u; eexists; reflexivity). destruct R as (x & ->). cbn [bind]. change (negb (0 =? 0)) with false. cbn [andb].
  rewrite (p_s_cstring _ u) by (apply cstring_app; exact N). reflexivity.
Qed.
Lemma iso_control d cs c rest u : Forall graphic (d :: cs) -> is_byte c -> c <> 0 -> ~ graphic c -> utf8_text (d :: cs) u -> (length u + 2 <= 2048)%nat ->
  exists e, iso8859_mode 1 (d :: cs ++ c :: rest) = Ret ([], e) /\ e <> [].
Proof.
  intros G B C0 NG U L. rewrite page_1. destruct (C47_utf8_control (d :: cs) c rest (repeat 0 2048) u G B C0 NG U ltac:(rewrite repeat_length; exact L)) as (b & E & Lb).
  cbn [app] in E. inversion G; subst. destruct (first_kept d (cs ++ c :: rest) (repeat 0 2048) 2 b) as (x & Rx & Nx); [assumption|rewrite repeat_length; lia|exact E|].
  rewrite E. cbn [bind]. rewrite Rx. cbn [bind]. destruct (Z.eqb_spec x 0); [contradiction|]. change (2 =? 0) with false. cbn [negb andb]. eexists. split; [reflexivity|]. discriminate.
Qed.
Lemma iso_other page data : page <> 1 -> exists e, iso8859_mode page data = Ret ([], e) /\ e <> [].
Proof.
  intros N. unfold iso8859_mode, iso8859_is_supported. destruct (Z.eqb_spec page 1); [contradiction|]. cbn [negb]. eexists. split; [reflexivity|]. discriminate.
Qed.

(** ** Merchant category codes, status words and reader capabilities *)
Lemma mcc_printed c short long beyond pad v arg : texts_only (mcc_by (c_env c)) -> bytes v -> length short = 1024%nat ->
  (forall s, numeric_code v -> mcc_by (c_env c) (decval v) = Some s -> (1 <= length s < 1024)%nat -> decode c short long beyond pad MMcc v arg = Ret (s ++ newline, [])) /\
  (numeric_code v -> mcc_by (c_env c) (decval v) = None -> decode c short long beyond pad MMcc v arg = Ret ([], lit "Unknown" ++ newline)) /\
  (~ numeric_code v -> exists e, decode c short long beyond pad MMcc v arg = Ret ([], e) /\ e <> []).
Proof.
  intros T B L. assert (NE : short <> []) by (eapply nonempty; [exact L|discriminate]). destruct (numeric_shown (mcc_by (c_env c)) v short T B NE) as [A N].
  assert (Z2 : numeric_code v -> Zlen v =? 2 = true) by (intros [_ K]; unfold Zlen; rewrite K; reflexivity).
  split; [|split].
  - intros s D E R. destruct (A D) as (new & F & Ln & C). rewrite E in C. cbn [InfoSpec.named] in C. rewrite firstn_all2 in C by lia. cbn [decode]. rewrite (Z2 D). cbn [negb]. unfold mcc_string. rewrite F. cbn [bind]. change (negb (0 =? 0)) with false. cbv iota.
    destruct new as [|x new]; [discriminate|]. change (rd (x :: new) 0) with (Ret x). cbn [bind]. destruct (Z.eqb_spec x 0) as [->|]; [cbn [cstring] in C; change (0 =? 0) with true in C; cbv iota in C; destruct s; [cbn [length] in R; lia|discriminate]|].
    rewrite (p_s_cstring _ _ C). reflexivity.
  - intros D E. destruct (A D) as (new & F & Ln & C). rewrite E in C. cbn [InfoSpec.named] in C. rewrite firstn_nil in C. cbn [decode]. rewrite (Z2 D). cbn [negb]. unfold mcc_string. rewrite F. cbn [bind]. change (negb (0 =? 0)) with false. cbv iota.
    destruct new as [|x new]; [discriminate|]. change (rd (x :: new) 0) with (Ret x). cbn [bind cstring] in *. destruct (x =? 0); [reflexivity|]. destruct (cstring new); discriminate.
  - intros D. destruct (N D) as (r & R & F). cbn [decode]. destruct (Zlen v =? 2); cbn [negb]; [|apply complains_some]. unfold mcc_string. rewrite F. cbn [bind]. destruct (Z.eqb_spec r 0); [contradiction|]. apply complains_some.
Qed.
Lemma sw_printed c short long beyond pad a b arg : is_byte a -> is_byte b -> length short = 1024%nat ->
  exists s, (forall str, str <> [] -> exists new, sw1sw2_get_string a b str = Ret (true, new) /\ shown str new s) /\
    decode c short long beyond pad MSw1Sw2 [a; b] arg = Ret (lit "SW1SW2: " ++ hex_text [a; b] ++ lit " (" ++ firstn 1023 s ++ lit ")" ++ newline, []).
Proof.
  intros Ba Bb L. destruct (C123_response [] a b short) as (s & A & _); [constructor|assumption..|eapply nonempty; [exact L|discriminate]|]. exists s. split; [exact A|].
  destruct (A short) as (new & E & Ln & C); [eapply nonempty; [exact L|discriminate]|]. cbn [decode]. change (Zlen [a; b] =? 2) with true. cbn [negb]. change (rd [a; b] 0) with (Ret a). change (rd [a; b] 1) with (Ret b). cbn [bind].
  unfold print_sw1sw2. rewrite E. cbn [bind negb]. rewrite (p_s_cstring _ _ C). cbn [bind prints]. rewrite L. unfold prints. do 2 f_equal.
  rewrite <- (hex_02X [a; b]) by (constructor; [assumption|constructor; [assumption|constructor]]). cbn [flat_map]. rewrite app_nil_r, <- app_assoc. reflexivity.
Qed.
Lemma amex_printed c short long beyond pad b arg : is_byte b -> length short = 1024%nat -> decode c short long beyond pad MAmexReader [b] arg = Ret (lit (amex_reader b) ++ newline, []).
Proof.
  intros B L. destruct C103_single_octets as (_ & _ & _ & A). destruct (A b short B ltac:(eapply nonempty; [exact L|discriminate])) as [A1 A2].
  assert (Q : amex_reader b <> "" /\ (length (lit (amex_reader b)) < 100)%nat).
  { unfold amex_reader. destruct (bit b 8), (bit b 7), (bit b 4); (split; [discriminate|vm_compute; lia]). }
  destruct Q as [Q1 Q2]. destruct (A1 Q1) as (new & E & Ln & C). cbn [decode]. change (Zlen [b] =? 1) with true. change (rd [b] 0) with (Ret b). cbn [negb bind]. rewrite E. cbn [bind]. change (0 =? 0) with true. cbn [negb].
  rewrite (p_s_cstring _ _ C), firstn_all2 by lia. reflexivity.
Qed.
