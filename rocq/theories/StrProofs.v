From Verif Require Import Base BaseLemmas BerSpec TlvModel TlvSpec TlvProofs TtlModel StrModel StrSpec.
Open Scope Z_scope.

(** ** Writing a prefix *)
(** [into old pre]: the buffer [old] with its first characters replaced by [pre]. *)
Definition into (old pre : list Z) : list Z := pre ++ skipn (length pre) old.
Lemma into_nil old : into old [] = old. Proof. reflexivity. Qed.
Lemma into_len old pre : (length pre <= length old)%nat -> length (into old pre) = length old.
Proof. intros H. unfold into. rewrite app_length, skipn_length. lia. Qed.
Lemma skipn_S {A} (l : list A) n : (n < length l)%nat -> exists x, skipn n l = x :: skipn (S n) l.
Proof.
  revert n; induction l as [|a l IH]; intros [|n] H; cbn [length] in H; try lia.
  - exists a; reflexivity.
  - destruct (IH n ltac:(lia)) as (x & E). exists x. cbn [skipn] in *. exact E.
Qed.
Lemma wr_into old pre o v : o = length pre -> (o < length old)%nat -> wr (into old pre) o v = Ret (into old (pre ++ [v])).
Proof.
  intros -> H. unfold into. destruct (skipn_S old (length pre) H) as (x & ->).
  rewrite wr_app by reflexivity. rewrite app_length; cbn [length]. rewrite <- app_assoc. cbn [app]. repeat f_equal. lia.
Qed.
Lemma wr_into_UB old pre o v : o = length pre -> (length old <= o)%nat -> (length pre <= length old)%nat -> wr (into old pre) o v = UB.
Proof. intros -> H H2. apply wr_UB. rewrite into_len by lia. lia. Qed.
Lemma into_text old pre : (length pre < length old)%nat -> text_in old (into old (pre ++ [0])) pre.
Proof.
  intros H. unfold text_in, into. split; [exact H|]. rewrite app_length; cbn [length]. rewrite <- app_assoc; cbn [app].
  repeat f_equal. lia.
Qed.

(** ** Plain text formats *)
Lemma copy_ok ok l : forall old pre, forallb ok l = true -> (length pre + length l < length old)%nat ->
  copy_chars ok l (into old pre) (length pre) = Ret (0, into old (pre ++ l ++ [0])).
Proof.
  induction l as [|c l IH]; intros old pre F H; cbn [copy_chars forallb length] in *.
  - rewrite wr_into by lia. reflexivity.
  - apply andb_true_iff in F as (F1 & F2). rewrite F1. rewrite wr_into by lia. cbn [bind].
    replace (S (length pre)) with (length (pre ++ [c])) by (rewrite app_length; cbn; lia).
    rewrite IH by (try assumption; rewrite app_length; cbn [length]; lia). rewrite <- app_assoc. reflexivity.
Qed.
Lemma copy_bad ok l : forall old pre, forallb ok l = false -> (length pre + length l < length old)%nat ->
  exists b, copy_chars ok l (into old pre) (length pre) = Ret (1, b) /\ length b = length old.
Proof.
  induction l as [|c l IH]; intros old pre F H; cbn [copy_chars forallb length] in *; [discriminate|].
  destruct (ok c).
  - cbn [andb] in F. rewrite wr_into by lia. cbn [bind].
    replace (S (length pre)) with (length (pre ++ [c])) by (rewrite app_length; cbn; lia).
    apply IH; [exact F|]. rewrite app_length; cbn [length]; lia.
  - eexists; split; [reflexivity|]. apply into_len; lia.
Qed.
Lemma text_cases ok val str :
  ((length val = 0 \/ length str = 0)%nat -> text_get_string ok val str = Ret (-1, str)) /\
  (val <> [] -> str <> [] -> (length str <= length val)%nat -> text_get_string ok val str = Ret (-2, str)) /\
  (val <> [] -> (length val < length str)%nat -> forallb ok val = true ->
     exists new, text_get_string ok val str = Ret (0, new) /\ text_in str new val) /\
  (val <> [] -> (length val < length str)%nat -> forallb ok val = false ->
     exists new, text_get_string ok val str = Ret (1, new) /\ length new = length str).
Proof.
  unfold text_get_string.
  split; [|split; [|split]].
  - intros H. destruct (Nat.eqb_spec (length val) 0), (Nat.eqb_spec (length str) 0); cbn [orb]; try reflexivity; lia.
  - intros Hv Hs H. destruct val, str; try contradiction. cbn [length Nat.eqb orb].
    destruct (Nat.ltb_spec (S (length str)) (S (length val) + 1)); [reflexivity|cbn [length] in *; lia].
  - intros Hv H F. destruct val as [|v val]; [contradiction|]. destruct str as [|s0 str]; [cbn in H; lia|]. cbn [length Nat.eqb orb].
    destruct (Nat.ltb_spec (S (length str)) (S (length val) + 1)); [cbn [length] in *; lia|].
    eexists; split; [|apply (into_text (s0 :: str) (v :: val)); cbn [length] in *; lia].
    exact (copy_ok ok (v :: val) (s0 :: str) [] F ltac:(cbn [length] in *; lia)).
  - intros Hv H F. destruct val as [|v val]; [contradiction|]. destruct str as [|s0 str]; [cbn in H; lia|]. cbn [length Nat.eqb orb].
    destruct (Nat.ltb_spec (S (length str)) (S (length val) + 1)); [cbn [length] in *; lia|].
    exact (copy_bad ok (v :: val) (s0 :: str) [] F ltac:(cbn [length] in *; lia)).
Qed.

(** ** Nibbles *)
Lemma nib_hi b : is_byte b -> Z.shiftr b 4 = b / 16. Proof. intros _. rewrite Z.shiftr_div_pow2 by lia. reflexivity. Qed.
Lemma nib_lo b : Z.land b 0xF = b mod 16. Proof. change 0xF with (Z.ones 4). rewrite Z.land_ones by lia. reflexivity. Qed.
Lemma nibbles_len l : length (nibbles l) = (2 * length l)%nat.
Proof. induction l; cbn [nibbles flat_map length app] in *; [reflexivity|]. fold (nibbles l). unfold nibbles in *. lia. Qed.
Lemma nibbles_cons b l : nibbles (b :: l) = b / 16 :: b mod 16 :: nibbles l. Proof. reflexivity. Qed.
Lemma nibbles_app a b : nibbles (a ++ b) = nibbles a ++ nibbles b. Proof. apply flat_map_app. Qed.
Lemma nibbles_inj a : forall b, bytes a -> bytes b -> nibbles a = nibbles b -> a = b.
Proof.
  induction a as [|x a IH]; intros [|y b] Ba Bb E; try reflexivity; try discriminate.
  rewrite !nibbles_cons in E. injection E as E1 E2 E3. unfold bytes in *; inversion Ba; inversion Bb; subst.
  f_equal; [|apply IH; assumption]. rewrite (Z.div_mod x 16), (Z.div_mod y 16) by lia. lia.
Qed.
Lemma before_pad_le ns : (length (before_pad ns) <= length ns)%nat.
Proof. induction ns as [|n t IH]; cbn [before_pad]; [lia|]. destruct (n =? 15); cbn [length] in *; lia. Qed.

(** ** Format cn *)
Lemma cn_ok l : forall i old pre, length pre = (i * 2)%nat -> bytes l -> digits (before_pad (nibbles l)) ->
  (length pre + 2 * length l < length old)%nat ->
  cn_loop l i (into old pre) = Ret (0, into old (pre ++ chars (before_pad (nibbles l)) ++ [0])).
Proof.
  induction l as [|b l IH]; intros i old pre Hp B D H; cbn [cn_loop].
  - rewrite wr_into by (cbn [length] in *; lia). reflexivity.
  - unfold bytes in B. pose proof (Forall_inv B) as Bb. pose proof (Forall_inv_tail B) as Bl. cbn [length] in H.
    rewrite nib_hi, nib_lo by assumption. rewrite nibbles_cons in *. cbn [before_pad] in *.
    destruct (Z.ltb_spec 9 (b / 16)) as [C1|C1].
    + destruct (Z.eqb_spec (b / 16) 15) as [E|E]; cbn [negb].
      * rewrite wr_into by lia. reflexivity.
      * exfalso. inversion D; lia.
    + destruct (Z.eqb_spec (b / 16) 15) as [E|E]; [lia|].
      rewrite wr_into by lia. cbn [bind].
      destruct (Z.ltb_spec 9 (b mod 16)) as [C2|C2].
      * destruct (Z.eqb_spec (b mod 16) 15) as [E2|E2]; cbn [negb].
        -- rewrite wr_into by (try rewrite app_length; cbn [length]; lia). cbn [chars map app]. rewrite <- app_assoc. reflexivity.
        -- exfalso. inversion D as [|? ? _ D2]; inversion D2; lia.
      * destruct (Z.eqb_spec (b mod 16) 15) as [E2|E2]; [lia|].
        rewrite wr_into by (try rewrite app_length; cbn [length]; lia). cbn [bind].
        assert (D2 : digits (before_pad (nibbles l))) by (inversion D as [|? ? _ Dx]; inversion Dx; assumption).
        rewrite IH; try assumption; [|rewrite !app_length; cbn [length]; lia..].
        cbn [chars map app]. rewrite <- !app_assoc. reflexivity.
Qed.
Lemma cn_bad l : forall i old pre, length pre = (i * 2)%nat -> bytes l -> ~ digits (before_pad (nibbles l)) ->
  (length pre + 2 * length l < length old)%nat ->
  exists b, cn_loop l i (into old pre) = Ret (1, b) /\ length b = length old.
Proof.
  induction l as [|b l IH]; intros i old pre Hp B D H; cbn [cn_loop].
  - exfalso; apply D; constructor.
  - unfold bytes in B. pose proof (Forall_inv B) as Bb. pose proof (Forall_inv_tail B) as Bl. cbn [length] in H.
    rewrite nib_hi, nib_lo by assumption. rewrite nibbles_cons in *. cbn [before_pad] in *.
    destruct (Z.ltb_spec 9 (b / 16)) as [C1|C1].
    + destruct (Z.eqb_spec (b / 16) 15) as [E|E]; cbn [negb].
      * exfalso; apply D; constructor.
      * eexists; split; [reflexivity|]. apply into_len; lia.
    + destruct (Z.eqb_spec (b / 16) 15) as [E|E]; [lia|].
      assert (P1 : 0 <= b / 16 <= 9) by (unfold is_byte in Bb; split; [apply Z.div_pos|]; lia).
      rewrite wr_into by lia. cbn [bind].
      destruct (Z.ltb_spec 9 (b mod 16)) as [C2|C2].
      * destruct (Z.eqb_spec (b mod 16) 15) as [E2|E2]; cbn [negb].
        -- exfalso; apply D. constructor; [exact P1|constructor].
        -- eexists; split; [reflexivity|]. apply into_len; rewrite app_length; cbn [length]; lia.
      * destruct (Z.eqb_spec (b mod 16) 15) as [E2|E2]; [lia|].
        assert (P2 : 0 <= b mod 16 <= 9) by (pose proof (Z.mod_pos_bound b 16); lia).
        rewrite wr_into by (try rewrite app_length; cbn [length]; lia). cbn [bind].
        apply IH; try assumption; [rewrite !app_length; cbn [length]; lia| |rewrite !app_length; cbn [length]; lia].
        intros D2; apply D. constructor; [exact P1|constructor; [exact P2|exact D2]].
Qed.
Lemma cn_cases val str : bytes val ->
  ((length val = 0 \/ length str = 0)%nat -> format_cn_get_string val str = Ret (-1, str)) /\
  (val <> [] -> str <> [] -> (length str <= 2 * length val)%nat -> format_cn_get_string val str = Ret (-2, str)) /\
  (val <> [] -> (2 * length val < length str)%nat -> digits (before_pad (nibbles val)) ->
     exists new, format_cn_get_string val str = Ret (0, new) /\ text_in str new (chars (before_pad (nibbles val)))) /\
  (val <> [] -> (2 * length val < length str)%nat -> ~ digits (before_pad (nibbles val)) ->
     exists new, format_cn_get_string val str = Ret (1, new) /\ length new = length str).
Proof.
  intros B. unfold format_cn_get_string.
  split; [|split; [|split]].
  - intros H. destruct (Nat.eqb_spec (length val) 0), (Nat.eqb_spec (length str) 0); cbn [orb]; try reflexivity; lia.
  - intros Hv Hs H. destruct (Nat.eqb_spec (length val) 0) as [E|E]; [destruct val; [contradiction|discriminate]|].
    destruct (Nat.eqb_spec (length str) 0) as [E2|E2]; [destruct str; [contradiction|discriminate]|]. cbn [orb].
    destruct (Nat.ltb_spec (length str) (length val * 2 + 1)); [reflexivity|lia].
  - intros Hv H D. destruct (Nat.eqb_spec (length val) 0) as [E|E]; [destruct val; [contradiction|discriminate]|].
    destruct (Nat.eqb_spec (length str) 0) as [E2|E2]; [lia|]. cbn [orb].
    destruct (Nat.ltb_spec (length str) (length val * 2 + 1)); [lia|].
    eexists; split; [exact (cn_ok val 0 str [] eq_refl B D ltac:(cbn [length]; lia))|].
    apply into_text. unfold chars. rewrite map_length. pose proof (before_pad_le (nibbles val)). rewrite nibbles_len in *. lia.
  - intros Hv H D. destruct (Nat.eqb_spec (length val) 0) as [E|E]; [destruct val; [contradiction|discriminate]|].
    destruct (Nat.eqb_spec (length str) 0) as [E2|E2]; [lia|]. cbn [orb].
    destruct (Nat.ltb_spec (length str) (length val * 2 + 1)); [lia|].
    exact (cn_bad val 0 str [] eq_refl B D ltac:(cbn [length]; lia)).
Qed.

(** ** Track 2 *)
Lemma track2_ok l : forall i old pre, length pre = (i * 2)%nat -> bytes l ->
  (length pre <= length old)%nat ->
  track2_loop l i (into old pre) =
  if (length pre + length (before_pad (nibbles l)) <? length old)%nat
  then Ret (0, into old (pre ++ chars (before_pad (nibbles l)) ++ [0])) else UB.
Proof.
  induction l as [|b l IH]; intros i old pre Hp B H; cbn [track2_loop].
  - cbn [nibbles flat_map before_pad length chars map app].
    destruct (Nat.ltb_spec (length pre + 0) (length old)).
    + rewrite wr_into by lia. reflexivity.
    + rewrite wr_into_UB by lia. reflexivity.
  - unfold bytes in B. pose proof (Forall_inv B) as Bb. pose proof (Forall_inv_tail B) as Bl.
    rewrite nib_hi, nib_lo by assumption. rewrite nibbles_cons in *. cbn [before_pad] in *.
    destruct (Z.eqb_spec (b / 16) 15) as [E|E].
    + cbn [length chars map app]. destruct (Nat.ltb_spec (length pre + 0) (length old)).
      * rewrite wr_into by lia. reflexivity.
      * rewrite wr_into_UB by lia. reflexivity.
    + destruct (Nat.ltb_spec (length pre) (length old)) as [L|L].
      2:{ rewrite wr_into_UB by lia. cbn [bind length]. destruct (Nat.ltb_spec (length pre + S (length (if b mod 16 =? 15 then [] else b mod 16 :: before_pad (nibbles l)))) (length old)); [lia|reflexivity]. }
      rewrite wr_into by lia. cbn [bind].
      assert (L1 : length (pre ++ [48 + b / 16]) = (i * 2 + 1)%nat) by (rewrite app_length; cbn [length]; lia).
      destruct (Z.eqb_spec (b mod 16) 15) as [E2|E2].
      * cbn [length chars map app]. destruct (Nat.ltb_spec (length pre + 1) (length old)).
        -- rewrite wr_into by lia. cbn [bind]. rewrite <- app_assoc. reflexivity.
        -- rewrite wr_into_UB by lia. reflexivity.
      * destruct (Nat.ltb_spec (i * 2 + 1) (length old)) as [L2|L2].
        2:{ rewrite wr_into_UB by lia. cbn [bind length]. destruct (Nat.ltb_spec (length pre + S (S (length (before_pad (nibbles l))))) (length old)); [lia|reflexivity]. }
        rewrite wr_into by lia. cbn [bind].
        rewrite IH; try assumption; [|rewrite !app_length; cbn [length]; lia..].
        cbn [length]. rewrite !app_length. cbn [length].
        replace (length pre + 1 + 1 + length (before_pad (nibbles l)))%nat with (length pre + S (S (length (before_pad (nibbles l)))))%nat by lia.
        cbn [chars map app]. rewrite <- !app_assoc. reflexivity.
Qed.
Lemma track2_cases val str : bytes val -> val <> [] -> str <> [] ->
  let ns := before_pad (nibbles val) in
  ((length ns < length str)%nat -> exists new, track2_get_string val str = Ret (0, new) /\ text_in str new (chars ns)) /\
  ((length str <= length ns)%nat -> track2_get_string val str = UB).
Proof.
  intros B Hv Hs ns. unfold track2_get_string.
  destruct (Nat.eqb_spec (length val) 0) as [E|E]; [destruct val; [contradiction|discriminate]|].
  destruct (Nat.eqb_spec (length str) 0) as [E2|E2]; [destruct str; [contradiction|discriminate]|].
  pose proof (track2_ok val 0 str [] eq_refl B ltac:(cbn [length]; lia)) as T. rewrite into_nil in T. rewrite T. clear T. fold ns. cbn [length Nat.add app].
  split; intros H; destruct (Nat.ltb_spec (length ns) (length str)); try lia; [|reflexivity].
  eexists; split; [reflexivity|]. apply into_text. unfold chars; rewrite map_length. exact H.
Qed.

(** ** Date and time *)
Lemma bcd_digits l : bytes l -> (bcd l <-> digits (nibbles l)).
Proof.
  intros B. induction l as [|b l IH]; [split; constructor|].
  unfold bytes in B. pose proof (Forall_inv B) as Bb. pose proof (Forall_inv_tail B) as Bl. specialize (IH Bl).
  assert (R : 0 <= b / 16 /\ 0 <= b mod 16) by (unfold is_byte in Bb; split; [apply Z.div_pos; lia|apply Z.mod_pos_bound; lia]).
  rewrite nibbles_cons. split; intros H.
  - inversion H as [|? ? (H1 & H2 & H3) H4]; subst. constructor; [lia|constructor; [lia|]]. apply IH; exact H4.
  - inversion H as [|? ? H1 H4]; subst. inversion H4 as [|? ? H2 H5]; subst. constructor; [|apply IH; exact H5].
    split; [exact Bb|lia].
Qed.
Lemma digits_loop_ok l : forall i loc pre, length pre = (i * 2)%nat -> bytes l -> bcd l ->
  (length pre + 2 * length l <= length loc)%nat ->
  digits_loop l i (into loc pre) = Ret (0, into loc (pre ++ chars (nibbles l))).
Proof.
  induction l as [|b l IH]; intros i loc pre Hp B D H; cbn [digits_loop].
  - cbn [nibbles flat_map chars map]. rewrite app_nil_r. reflexivity.
  - unfold bytes in B. pose proof (Forall_inv B) as Bb. pose proof (Forall_inv_tail B) as Bl. cbn [length] in H.
    inversion D as [|? ? (D1 & D2 & D3) D4]; subst.
    rewrite nib_hi, nib_lo by assumption. rewrite nibbles_cons.
    destruct (Z.ltb_spec 9 (b / 16)) as [C1|C1]; [lia|].
    rewrite wr_into by lia. cbn [bind].
    destruct (Z.ltb_spec 9 (b mod 16)) as [C2|C2]; [lia|].
    rewrite wr_into by (try rewrite app_length; cbn [length]; lia). cbn [bind].
    rewrite IH; try assumption; [|rewrite !app_length; cbn [length]; lia..].
    cbn [chars map]. rewrite <- !app_assoc. reflexivity.
Qed.
Lemma digits_loop_bad l : forall i loc pre, length pre = (i * 2)%nat -> bytes l -> ~ bcd l ->
  (length pre + 2 * length l <= length loc)%nat ->
  exists r loc', digits_loop l i (into loc pre) = Ret (r, loc') /\ (r = 2 \/ r = 3).
Proof.
  induction l as [|b l IH]; intros i loc pre Hp B D H; cbn [digits_loop].
  - exfalso; apply D; constructor.
  - unfold bytes in B. pose proof (Forall_inv B) as Bb. pose proof (Forall_inv_tail B) as Bl. cbn [length] in H.
    rewrite nib_hi, nib_lo by assumption.
    destruct (Z.ltb_spec 9 (b / 16)) as [C1|C1]; [eauto|].
    rewrite wr_into by lia. cbn [bind].
    destruct (Z.ltb_spec 9 (b mod 16)) as [C2|C2]; [eauto|].
    rewrite wr_into by (try rewrite app_length; cbn [length]; lia). cbn [bind].
    apply IH; try assumption; [rewrite !app_length; cbn [length]; lia| |rewrite !app_length; cbn [length]; lia].
    intros D2; apply D. constructor; [|exact D2]. repeat split; try lia; unfold is_byte in Bb; lia.
Qed.
Lemma date_time_cases loc min fmt val str : bytes val -> (6 <= length loc)%nat ->
  (forall d, length d = 6%nat -> (length (fmt d) = min)) ->
  (val = [] -> date_time loc min fmt val str = Ret (-1, str)) /\
  (val <> [] -> str = [] -> date_time loc min fmt val str = Ret (0, str)) /\
  (val <> [] -> str <> [] -> length val <> 3%nat -> date_time loc min fmt val str = Ret (1, str)) /\
  (length val = 3%nat -> str <> [] -> (length str < min)%nat -> date_time loc min fmt val str = Ret (-2, str)) /\
  (length val = 3%nat -> str <> [] -> (min <= length str)%nat -> ~ bcd val ->
     exists r, date_time loc min fmt val str = Ret (r, str) /\ (r = 2 \/ r = 3)) /\
  (length val = 3%nat -> str <> [] -> (min <= length str)%nat -> bcd val ->
     date_time loc min fmt val str =
     if (length loc <? 8)%nat then UB else Ret (0, into str (fmt (chars (nibbles val))))).
Proof.
  intros B HL F. unfold date_time.
  split; [intros ->; reflexivity|].
  split; [intros Hv ->; destruct val; [contradiction|reflexivity]|].
  split; [intros Hv Hs H3; destruct val; [contradiction|]; destruct str; [contradiction|]; cbn [length Nat.eqb] in *;
    destruct (Nat.eqb_spec (length val) 2); [lia|reflexivity]|].
  split; [|split].
  - intros H3 Hs Hm. rewrite H3. cbn [Nat.eqb negb]. destruct (Nat.eqb_spec (length str) 0); [destruct str; [contradiction|discriminate]|].
    destruct (Nat.ltb_spec (length str) min); [reflexivity|lia].
  - intros H3 Hs Hm D. rewrite H3. cbn [Nat.eqb negb]. destruct (Nat.eqb_spec (length str) 0); [destruct str; [contradiction|discriminate]|].
    destruct (Nat.ltb_spec (length str) min); [lia|].
    destruct (digits_loop_bad val 0 loc [] eq_refl B D ltac:(cbn [length]; lia)) as (r & loc' & E & R). rewrite into_nil in E. rewrite E. cbn [bind].
    exists r. split; [|exact R]. destruct (Z.eqb_spec r 0); [lia|reflexivity].
  - intros H3 Hs Hm D. rewrite H3. cbn [Nat.eqb negb]. destruct (Nat.eqb_spec (length str) 0); [destruct str; [contradiction|discriminate]|].
    destruct (Nat.ltb_spec (length str) min); [lia|].
    pose proof (digits_loop_ok val 0 loc [] eq_refl B D ltac:(cbn [length]; lia)) as E. rewrite into_nil in E. rewrite E. cbn [bind Z.eqb negb app Nat.mul Nat.add].
    assert (L6 : length (chars (nibbles val)) = 6%nat) by (unfold chars; rewrite map_length, nibbles_len; lia).
    destruct (Nat.ltb_spec (length loc) 8) as [S|S].
    + assert (U : wr (into loc (chars (nibbles val))) 7 0 = UB) by (apply wr_UB; rewrite into_len by lia; lia). rewrite U. reflexivity.
    + rewrite wr_Ret by (rewrite into_len by lia; lia). cbn [bind].
      assert (U : sub (upd (into loc (chars (nibbles val))) 7 0) 0 6 = Ret (chars (nibbles val))).
      { rewrite sub_Ret by (rewrite upd_length, into_len by lia; lia). f_equal. unfold into.
        destruct (chars (nibbles val)) as [|c0 [|c1 [|c2 [|c3 [|c4 [|c5 [|]]]]]]]; cbn [length] in L6; try lia. reflexivity. }
      rewrite U. cbn [bind]. rewrite put_Ret by (rewrite F by exact L6; lia). cbn [bind firstn app]. unfold into. reflexivity.
Qed.

(** ** Numbers *)
Lemma number_acc ds : forall a, fold_left (fun a d => a * 10 + d) ds a = a * 10 ^ Zlen ds + number ds.
Proof.
  unfold number. induction ds as [|d ds IH]; intros a; cbn [fold_left]; [unfold Zlen; cbn; lia|].
  rewrite IH, (IH (0 * 10 + d)). unfold Zlen. cbn [length]. rewrite Nat2Z.inj_succ, Z.pow_succ_r by lia. ring.
Qed.
Lemma number_cons d ds : number (d :: ds) = d * 10 ^ Zlen ds + number ds.
Proof. unfold number at 1; cbn [fold_left]. rewrite number_acc. reflexivity. Qed.
Lemma number_app a b : number (a ++ b) = number a * 10 ^ Zlen b + number b.
Proof. unfold number at 1. rewrite fold_left_app. fold (number a). apply number_acc. Qed.
Lemma number_range ds : digits ds -> 0 <= number ds < 10 ^ Zlen ds.
Proof.
  induction 1 as [|d ds H Hd IH]; [unfold number, Zlen; cbn; lia|]. rewrite number_cons.
  unfold Zlen in *. cbn [length]. rewrite Nat2Z.inj_succ, Z.pow_succ_r by lia. nia.
Qed.
Lemma number_inj a : forall b, length a = length b -> digits a -> digits b -> number a = number b -> a = b.
Proof.
  induction a as [|x a IH]; intros [|y b] L Da Db E; try reflexivity; try discriminate.
  injection L as L. inversion Da as [|? ? X A]; inversion Db as [|? ? Y B]; subst. rewrite !number_cons in E.
  pose proof (number_range a A) as Ra. pose proof (number_range b B) as Rb. unfold Zlen in *. rewrite L in E, Ra.
  assert (x = y) by nia. subst y. f_equal. apply IH; try assumption. lia.
Qed.
Lemma decimal_exists v : 0 <= v -> exists ds, decimal v ds.
Proof.
  intros H. assert (G : forall n v, 0 <= v < Z.of_nat n -> exists ds, decimal v ds).
  2:{ apply (G (S (Z.to_nat v))). lia. }
  induction n as [|n IH]; intros w R; [lia|].
  destruct (Z.ltb_spec w 10) as [L|L].
  - exists [w]. unfold decimal. split; [repeat constructor; lia|]. split; [unfold number; cbn [fold_left]; lia|]. split; [discriminate|].
    cbn [hd]. intros ->; reflexivity.
  - assert (w / 10 < w) by (apply Z.div_lt; lia). assert (1 <= w / 10) by (apply Z.div_le_lower_bound; lia).
    destruct (IH (w / 10) ltac:(lia)) as (ds & D1 & D2 & D3 & D4). exists (ds ++ [w mod 10]).
    pose proof (Z.mod_pos_bound w 10 ltac:(lia)).
    split; [apply Forall_app; split; [exact D1|repeat constructor; lia]|].
    split; [rewrite number_app, D2; unfold Zlen, number; cbn [length fold_left]; pose proof (Z.div_mod w 10 ltac:(lia)); change (10 ^ Z.of_nat 1) with 10; lia|].
    split; [destruct ds; discriminate|].
    intros Hh. destruct ds as [|d ds]; [contradiction|]. cbn [hd app] in *. rewrite (D4 Hh) in D2. unfold number in D2; cbn [fold_left] in D2. lia.
Qed.
Lemma decimal_lead v ds : decimal v ds -> 0 < v -> 10 ^ (Zlen ds - 1) <= v < 10 ^ Zlen ds.
Proof.
  intros (D1 & <- & D3 & D4) Hv. split; [|apply number_range; exact D1].
  destruct ds as [|d ds]; [contradiction|]. rewrite number_cons in *. inversion D1 as [|? ? X A]; subst.
  pose proof (number_range ds A). cbn [hd] in D4. unfold Zlen in *. cbn [length]. replace (Z.of_nat (S (length ds)) - 1) with (Z.of_nat (length ds)) by lia.
  assert (d <> 0). { intros ->. pose proof (D4 eq_refl) as E0. injection E0 as ->. unfold number in Hv; cbn in Hv; lia. } nia.
Qed.
Lemma decimal_unique v a b : decimal v a -> decimal v b -> a = b.
Proof.
  intros A B. destruct (Z.ltb_spec 0 v) as [H|H].
  - pose proof (decimal_lead v a A H) as (A1 & A2). pose proof (decimal_lead v b B H) as (B1 & B2).
    assert (L : length a = length b).
    { destruct A as (_ & _ & An & _), B as (_ & _ & Bn & _).
      destruct (Nat.lt_trichotomy (length a) (length b)) as [C|[C|C]]; [exfalso|exact C|exfalso].
      - assert (10 ^ Zlen a <= 10 ^ (Zlen b - 1)) by (apply Z.pow_le_mono_r; unfold Zlen; lia). lia.
      - assert (10 ^ Zlen b <= 10 ^ (Zlen a - 1)) by (apply Z.pow_le_mono_r; unfold Zlen; lia). lia. }
    destruct A as (A3 & A4 & _), B as (B3 & B4 & _). apply number_inj; congruence.
  - assert (Z0 : forall c, decimal v c -> c = [0]).
    { intros c (C1 & C2 & C3 & C4). apply C4. destruct c as [|d c]; [contradiction|]. cbn [hd]. rewrite number_cons in C2.
      inversion C1 as [|? ? X Y]; subst. pose proof (number_range c Y). assert (0 < 10 ^ Zlen c) by (unfold Zlen; lia). nia. }
    rewrite (Z0 a A), (Z0 b B). reflexivity.
Qed.

(** The loop once the first digit is found: it writes [k] more digits. *)
Lemma uint_found k : forall ds old pre, length ds = k -> digits ds -> (length pre <= length old)%nat -> (length pre < length old)%nat ->
  uint_loop k (number ds) true (length pre) (into old pre) =
  if (length pre + k <? length old)%nat then Ret (0, into old (pre ++ chars ds ++ [0])) else UB.
Proof.
  induction k as [|k IH]; intros ds old pre L D H H1; cbn [uint_loop].
  - destruct ds; [|discriminate]. destruct (Nat.ltb_spec (length pre + 0) (length old)); [|lia].
    rewrite wr_into by lia. reflexivity.
  - destruct ds as [|d ds]; [discriminate|]. injection L as L. inversion D as [|? ? X A]; subst.
    rewrite number_cons. pose proof (number_range ds A) as R. unfold Zlen in *. set (P := 10 ^ Z.of_nat (length ds)) in *.
    assert (Q : (d * P + number ds) / P = d) by (rewrite Z.div_add_l, Z.div_small by lia; lia).
    assert (M : (d * P + number ds) mod P = number ds) by (rewrite Z.add_comm, Z_mod_plus_full; apply Z.mod_small; lia).
    rewrite Q, M. rewrite u8_id by lia. rewrite orb_true_r. rewrite wr_into by lia. cbn [bind].
    rewrite into_len by (rewrite app_length; cbn [length]; lia).
    destruct (Nat.eqb_spec (length old - S (length pre)) 0) as [E|E].
    + rewrite wr_into_UB by (rewrite ?app_length; cbn [length]; lia). cbn [bind].
      destruct (Nat.ltb_spec (length pre + S (length ds)) (length old)); [lia|reflexivity].
    + replace (S (length pre)) with (length (pre ++ [0x30 + d])) by (rewrite app_length; cbn [length]; lia).
      rewrite (IH ds) by (try assumption; rewrite ?app_length; cbn [length]; lia).
      rewrite app_length. cbn [length]. replace (length pre + 1 + length ds)%nat with (length pre + S (length ds))%nat by lia.
      cbn [chars map app]. rewrite <- app_assoc. reflexivity.
Qed.
Lemma uint_skip k : forall v ds old, (2 <= length old)%nat -> 0 < v -> decimal v ds -> (length ds <= k)%nat ->
  uint_loop k v false 0 old = if (length ds <? length old)%nat then Ret (0, into old (chars ds ++ [0])) else UB.
Proof.
  induction k as [|k IH]; intros v ds old H Hv D L.
  - destruct D as (_ & _ & D3 & _). destruct ds; [contradiction|cbn in L; lia].
  - pose proof (decimal_lead v ds D Hv) as (Lo & Hi).
    destruct (Nat.eqb_spec (length ds) (S k)) as [E|E].
    + (* first digit *)
      destruct D as (D1 & D2 & D3 & D4). destruct ds as [|d ds]; [contradiction|]. injection E as E. inversion D1 as [|? ? X A]; subst k.
      cbn [uint_loop]. subst v. rewrite number_cons in *. pose proof (number_range ds A) as R. unfold Zlen in *. cbn [length] in *.
      replace (Z.of_nat (S (length ds)) - 1) with (Z.of_nat (length ds)) in Lo by lia.
      set (P := 10 ^ Z.of_nat (length ds)) in *.
      assert (Q : (d * P + number ds) / P = d) by (rewrite Z.div_add_l, Z.div_small by lia; lia).
      assert (M : (d * P + number ds) mod P = number ds) by (rewrite Z.add_comm, Z_mod_plus_full; apply Z.mod_small; lia).
      rewrite Q, M. rewrite u8_id by lia.
      assert (d <> 0) by (intros ->; lia). destruct (Z.eqb_spec d 0); [contradiction|]. cbn [negb orb].
      rewrite <- (into_nil old) at 1. rewrite wr_into by (cbn [length]; lia). cbn [bind app]. rewrite into_len by (cbn [length]; lia).
      destruct (Nat.eqb_spec (length old - 1) 0); [lia|].
      pose proof (uint_found (length ds) ds old [0x30 + d] eq_refl A ltac:(cbn [length]; lia) ltac:(cbn [length]; lia)) as U.
      cbn [length Nat.add app] in U. rewrite U. cbn [chars map app]. reflexivity.
    + cbn [uint_loop]. assert (v < 10 ^ Z.of_nat k).
      { assert (10 ^ Zlen ds <= 10 ^ Z.of_nat k) by (apply Z.pow_le_mono_r; unfold Zlen; lia). lia. }
      rewrite Z.div_small, Z.mod_small by lia. cbn [u8 Z.modulo Z.eqb]. change (u8 0) with 0. cbn [Z.eqb negb orb bind].
      rewrite Nat.sub_0_r. destruct (Nat.eqb_spec (length old) 0); [lia|]. apply IH; try assumption. lia.
Qed.
Lemma uint_cases v ds str : 0 <= v < 4294967296 -> decimal v ds ->
  ((length str < 2)%nat -> uint_to_str v str = Ret (-2, str)) /\
  ((2 <= length str)%nat -> (length ds < length str)%nat ->
     exists new, uint_to_str v str = Ret (0, new) /\ text_in str new (chars ds)) /\
  ((2 <= length str)%nat -> (length str <= length ds)%nat -> uint_to_str v str = UB).
Proof.
  intros Hv D. unfold uint_to_str.
  split; [intros H; destruct (Nat.ltb_spec (length str) 2); [reflexivity|lia]|].
  assert (G : (2 <= length str)%nat -> (if (length str <? 2)%nat then Ret (-2, str) else if v =? 0 then
     let* str := wr str 0 0x30 in let* str := wr str 1 0 in Ret (0, str) else uint_loop 10 v false 0 str) =
     if (length ds <? length str)%nat then Ret (0, into str (chars ds ++ [0])) else UB).
  { intros H. destruct (Nat.ltb_spec (length str) 2); [lia|]. destruct (Z.eqb_spec v 0) as [->|N].
    - assert (Z0 : decimal 0 [0]) by (unfold decimal; split; [repeat constructor; lia|split; [reflexivity|split; [discriminate|reflexivity]]]).
      rewrite (decimal_unique 0 ds [0] D Z0). cbn [length]. destruct (Nat.ltb_spec 1 (length str)); [|lia].
      destruct str as [|a [|b str]]; cbn [length] in *; try lia. reflexivity.
    - apply uint_skip; try lia; [exact D|]. pose proof (decimal_lead v ds D ltac:(lia)) as (Lo & _).
      destruct (Nat.leb_spec (length ds) 10) as [C|C]; [exact C|exfalso].
      assert (10 ^ 10 <= 10 ^ (Zlen ds - 1)) by (apply Z.pow_le_mono_r; unfold Zlen; lia). lia. }
  split; intros H L; rewrite (G H); destruct (Nat.ltb_spec (length ds) (length str)); try lia; [|reflexivity].
  eexists; split; [reflexivity|]. apply into_text. unfold chars; rewrite map_length; exact L.
Qed.

(** ** Packing *)
Lemma is_num_spec c : is_num c = true <-> 48 <= c <= 57.
Proof. unfold is_num. rewrite andb_true_iff, !Z.leb_le. reflexivity. Qed.
Lemma nib_join h d : 0 <= h <= 15 -> 0 <= d <= 15 -> Z.lor (h * 16) d = h * 16 + d.
Proof.
  intros Hh Hd. replace (h * 16) with (Z.shiftl h 4) at 1 by (rewrite Z.shiftl_mul_pow2 by lia; reflexivity).
  rewrite lor_shiftl by (change (2 ^ 4) with 16; lia). reflexivity.
Qed.
Lemma nib_split h d : 0 <= h -> 0 <= d <= 15 -> (h * 16 + d) / 16 = h /\ (h * 16 + d) mod 16 = d.
Proof. intros Hh Hd. split; [rewrite Z.div_add_l by lia; rewrite Z.div_small; lia|]. rewrite Z.add_comm, Z_mod_plus_full. apply Z.mod_small; lia. Qed.
Lemma pad_ff_ok k : forall done rest, length rest = k -> pad_ff k (length done) (done ++ rest) = Ret (done ++ repeat 0xFF k).
Proof.
  induction k as [|k IH]; intros done rest L; cbn [pad_ff].
  - destruct rest; [reflexivity|discriminate].
  - destruct rest as [|x rest]; [discriminate|]. injection L as L. rewrite wr_app by reflexivity. cbn [bind].
    replace (S (length done)) with (length (done ++ [0xFF])) by (rewrite app_length; cbn; lia).
    change (done ++ 255 :: rest) with (done ++ [0xFF] ++ rest). rewrite app_assoc, IH by exact L. rewrite <- app_assoc. reflexivity.
Qed.
Lemma nibbles_ff k : nibbles (repeat 0xFF k) = repeat 15 (2 * k).
Proof. induction k as [|k IH]; [reflexivity|]. cbn [repeat]. rewrite nibbles_cons, IH. replace (2 * S k)%nat with (S (S (2 * k))) by lia. reflexivity. Qed.
Lemma bytes_repeat b k : is_byte b -> bytes (repeat b k).
Proof. intros H. induction k; constructor; assumption. Qed.

(** The outcome of packing [s] into the nibbles left, [pre] already there. *)
Definition packed_cn (n : nat) (s : list Z) (done pre : list Z) (total : nat) (r : out (Z * list Z)) : Prop :=
  (forallb is_num (firstn n s) = true -> exists b, r = Ret (0, done ++ b) /\ bytes b /\
     nibbles b = pre ++ map dig (firstn n s) ++ repeat 15 (n - length s) /\ (length done + length b = total)%nat) /\
  (forallb is_num (firstn n s) = false -> exists b, r = Ret (1, b) /\ length b = total).
Lemma cn_pack_ok s : forall done,
  (forall rest, packed_cn (2 * length rest) s done [] (length done + length rest) (cn_pack s (done ++ rest) (length done) (length rest) false)) /\
  (forall h t, 0 <= h <= 9 -> packed_cn (2 * length t + 1) s done [h] (length done + S (length t))
     (cn_pack s (done ++ h * 16 :: t) (length done) (S (length t)) true)).
Proof.
  induction s as [|c s IH]; intros done; (split; [intros rest|intros h t Hh]).
  - split; [intros _|rewrite firstn_nil; discriminate].
    exists (repeat 0xFF (length rest)). cbn [cn_pack]. rewrite firstn_nil. cbn [map app length]. rewrite Nat.sub_0_r, repeat_length.
    split; [|split; [apply bytes_repeat; unfold is_byte; lia|split; [apply nibbles_ff|reflexivity]]].
    unfold cn_finish. destruct rest as [|x rest]; [cbn; reflexivity|]. cbn [length]. rewrite pad_ff_ok by reflexivity. reflexivity.
  - split; [intros _|rewrite firstn_nil; discriminate].
    exists ((h * 16 + 15) :: repeat 0xFF (length t)). cbn [cn_pack cn_finish]. rewrite firstn_nil. cbn [map app length]. rewrite Nat.sub_0_r, repeat_length.
    split; [|split; [constructor; [unfold is_byte; lia|apply bytes_repeat; unfold is_byte; lia]|split; [|reflexivity]]].
    + rewrite rd_app_mid by reflexivity. cbn [bind]. rewrite nib_join by lia. rewrite wr_app by reflexivity. cbn [bind].
      replace (S (length done)) with (length (done ++ [h * 16 + 15])) by (rewrite app_length; cbn; lia).
      change (done ++ (h * 16 + 15) :: t) with (done ++ [h * 16 + 15] ++ t). rewrite app_assoc, pad_ff_ok by reflexivity. rewrite <- app_assoc. reflexivity.
    + rewrite nibbles_cons, nibbles_ff. destruct (nib_split h 15 ltac:(lia) ltac:(lia)) as (-> & ->).
      replace (2 * length t + 1)%nat with (S (2 * length t)) by lia. reflexivity.
  - destruct rest as [|x rest].
    + split; [intros _|cbn; discriminate]. exists []. cbn. split; [reflexivity|]. split; [constructor|]. split; [reflexivity|lia].
    + cbn [length cn_pack]. replace (2 * S (length rest))%nat with (S (2 * length rest + 1)) by lia. cbn [firstn].
      destruct (is_num c) eqn:C.
      * apply is_num_spec in C. rewrite wr_app by reflexivity. cbn [bind].
        assert (E : u8 (Z.shiftl (c - 0x30) 4) = dig c * 16).
        { rewrite Z.shiftl_mul_pow2 by lia. unfold dig. change (2 ^ 4) with 16. apply u8_id. lia. }
        rewrite E. destruct (IH done) as (_ & IH2). specialize (IH2 (dig c) rest ltac:(unfold dig; lia)).
        destruct IH2 as (G1 & G2). split.
        -- intros F. cbn [firstn forallb] in F. apply andb_true_iff in F as (_ & F). destruct (G1 F) as (b & Eb & Bb & Nb & Lb).
           exists b. split; [exact Eb|]. split; [exact Bb|]. split; [|exact Lb]. rewrite Nb. cbn [firstn map app length]. reflexivity.
        -- intros F. cbn [firstn forallb] in F. assert (F2 : forallb is_num (firstn (2 * length rest + 1) s) = false).
           { destruct (forallb is_num (firstn (2 * length rest + 1) s)); [|reflexivity]. rewrite andb_true_r in F. apply is_num_spec in C. congruence. }
           exact (G2 F2).
      * split; [cbn [firstn forallb]; rewrite C; discriminate|]. intros _. eexists; split; [reflexivity|]. rewrite app_length; cbn [length]; reflexivity.
  - cbn [cn_pack]. replace (2 * length t + 1)%nat with (S (2 * length t)) by lia. cbn [firstn].
    destruct (is_num c) eqn:C.
    + apply is_num_spec in C. rewrite rd_app_mid by reflexivity. cbn [bind].
      assert (E : Z.land (c - 0x30) 0x0F = dig c) by (rewrite nib_lo; apply Z.mod_small; unfold dig; lia).
      rewrite E, nib_join by (unfold dig; lia). rewrite wr_app by reflexivity. cbn [bind].
      set (b0 := h * 16 + dig c).
      replace (S (length done)) with (length (done ++ [b0])) by (rewrite app_length; cbn; lia).
      change (done ++ b0 :: t) with (done ++ [b0] ++ t). rewrite app_assoc.
      destruct (IH (done ++ [b0])) as (IH1 & _). destruct (IH1 t) as (G1 & G2). split.
      * intros F. cbn [firstn forallb] in F. apply andb_true_iff in F as (_ & F). destruct (G1 F) as (b & Eb & Bb & Nb & Lb).
        exists (b0 :: b). split; [rewrite Eb, <- app_assoc; reflexivity|]. split; [constructor; [unfold is_byte, b0, dig; lia|exact Bb]|].
        split; [|rewrite app_length in Lb; cbn [length] in *; lia].
        rewrite nibbles_cons, Nb. unfold b0. destruct (nib_split h (dig c) ltac:(lia) ltac:(unfold dig; lia)) as (-> & ->). reflexivity.
      * intros F. cbn [firstn forallb] in F. assert (F2 : forallb is_num (firstn (2 * length t) s) = false).
        { destruct (forallb is_num (firstn (2 * length t) s)); [|reflexivity]. rewrite andb_true_r in F. apply is_num_spec in C. congruence. }
        destruct (G2 F2) as (b & Eb & Lb). exists b. split; [exact Eb|]. rewrite app_length in Lb; cbn [length] in Lb; lia.
    + split; [cbn [firstn forallb]; rewrite C; discriminate|]. intros _. eexists; split; [reflexivity|]. rewrite app_length; cbn [length]; reflexivity.
Qed.
Lemma pack_cn s buf : buf <> [] ->
  let n := (2 * length buf)%nat in
  (Forall (fun c => 48 <= c <= 57) (firstn n s) -> exists new, str_to_format_cn s buf = Ret (0, new) /\ length new = length buf /\ bytes new /\
     nibbles new = map dig (firstn n s) ++ repeat 15 (n - length s)) /\
  (~ Forall (fun c => 48 <= c <= 57) (firstn n s) -> exists new, str_to_format_cn s buf = Ret (1, new) /\ length new = length buf).
Proof.
  intros Hb n. unfold str_to_format_cn. destruct (Nat.eqb_spec (length buf) 0) as [E|E]; [destruct buf; [contradiction|discriminate]|].
  destruct (cn_pack_ok s []) as (G & _). destruct (G buf) as (G1 & G2). cbn [app length Nat.add] in *. fold n in G1, G2.
  assert (Q : forall l, Forall (fun c => 48 <= c <= 57) l <-> forallb is_num l = true).
  { intros l. rewrite forallb_forall, Forall_forall. split; intros H x I; apply is_num_spec; apply H, I. }
  split; intros F.
  - apply Q in F. destruct (G1 F) as (b & Eb & Bb & Nb & Lb). exists b. auto.
  - assert (F2 : forallb is_num (firstn n s) = false) by (destruct (forallb is_num (firstn n s)) eqn:X; [exfalso; apply F, Q, X|reflexivity]).
    destruct (G2 F2) as (b & Eb & Lb). exists b; auto.
Qed.
Lemma before_pad_app ds k : digits ds -> before_pad (ds ++ repeat 15 k) = ds.
Proof.
  induction 1 as [|d ds H Hd IH]; cbn [app before_pad].
  - destruct k; reflexivity.
  - destruct (Z.eqb_spec d 15); [lia|]. rewrite IH. reflexivity.
Qed.
Lemma dig_chars ds : map dig (chars ds) = ds.
Proof. unfold chars. rewrite map_map. rewrite <- (map_id ds) at 2. apply map_ext. intros; unfold dig; lia. Qed.
Lemma chars_num ds : digits ds -> Forall (fun c => 48 <= c <= 57) (chars ds).
Proof. intros D. unfold chars. apply Forall_map. revert D. apply Forall_impl. intros; lia. Qed.
Lemma cn_round_trip ds buf str : digits ds -> buf <> [] -> (length ds <= 2 * length buf)%nat -> (2 * length buf < length str)%nat ->
  exists new out, str_to_format_cn (chars ds) buf = Ret (0, new) /\ length new = length buf /\ bytes new /\
    nibbles new = ds ++ repeat 15 (2 * length buf - length ds) /\
    format_cn_get_string new str = Ret (0, out) /\ text_in str out (chars ds).
Proof.
  intros D Hb L Ls. destruct (pack_cn (chars ds) buf Hb) as (G & _).
  assert (Lc : length (chars ds) = length ds) by apply map_length.
  rewrite firstn_all2 in G by lia. destruct (G (chars_num ds D)) as (new & E & Ln & Bn & Nn). rewrite dig_chars, Lc in Nn.
  destruct (cn_cases new str Bn) as (_ & _ & C & _).
  rewrite Nn, before_pad_app in C by exact D.
  destruct (C ltac:(intros ->; destruct buf; [contradiction|discriminate]) ltac:(lia) D) as (o & Eo & To).
  exists new, o. auto 10.
Qed.
(** Every field whose nibbles are digits padded with F comes back. *)
Lemma cn_inverse val ds k str : bytes val -> val <> [] -> digits ds -> nibbles val = ds ++ repeat 15 k -> (2 * length val < length str)%nat ->
  exists o, format_cn_get_string val str = Ret (0, o) /\ text_in str o (chars ds) /\
    forall buf, length buf = length val -> str_to_format_cn (chars ds) buf = Ret (0, val).
Proof.
  intros B Hv D N L. destruct (cn_cases val str B) as (_ & _ & C & _). rewrite N, before_pad_app in C by exact D.
  destruct (C Hv L D) as (o & Eo & To). exists o. split; [exact Eo|]. split; [exact To|].
  intros buf Lb. assert (NL : length (nibbles val) = length (ds ++ repeat 15 k)) by (rewrite N; reflexivity).
  rewrite nibbles_len, app_length, repeat_length in NL.
  destruct (pack_cn (chars ds) buf ltac:(intros ->; destruct val; [contradiction|discriminate])) as (G & _).
  assert (Lc : length (chars ds) = length ds) by apply map_length.
  rewrite firstn_all2 in G by lia. destruct (G (chars_num ds D)) as (new & E & Ln & Bn & Nn). rewrite dig_chars, Lc in Nn.
  rewrite E. do 2 f_equal. apply nibbles_inj; try assumption. rewrite Nn, N. f_equal. f_equal. lia.
Qed.

Lemma pad_00_ok k : forall rest done, length rest = k -> pad_00 k (rest ++ done) = Ret (repeat 0 k ++ done).
Proof.
  induction k as [|k IH]; intros rest done L; cbn [pad_00].
  - destruct rest; [reflexivity|discriminate].
  - destruct (@exists_last _ rest) as (rest' & x & ->); [intros ->; discriminate|]. rewrite app_length in L; cbn [length] in L.
    rewrite <- app_assoc. cbn [app]. rewrite wr_app by lia. cbn [bind]. rewrite (IH rest' (0 :: done)) by lia.
    f_equal. clear. induction k as [|k IH]; [reflexivity|]. cbn [repeat app] in *. rewrite IH. reflexivity.
Qed.
Lemma nibbles_00 k : nibbles (repeat 0 k) = repeat 0 (2 * k).
Proof. induction k as [|k IH]; [reflexivity|]. cbn [repeat]. rewrite nibbles_cons, IH. replace (2 * S k)%nat with (S (S (2 * k))) by lia. reflexivity. Qed.
Definition packed_n (n : nat) (rs : list Z) (done post : list Z) (total : nat) (r : out (Z * list Z)) : Prop :=
  (forallb is_num (firstn n rs) = true -> exists b, r = Ret (0, b ++ done) /\ bytes b /\
     nibbles b = repeat 0 (n - length rs) ++ rev (map dig (firstn n rs)) ++ post /\ (length b + length done = total)%nat) /\
  (forallb is_num (firstn n rs) = false -> exists b, r = Ret (1, b) /\ length b = total).
Lemma n_pack_ok rs : forall done,
  (forall rest, packed_n (2 * length rest) rs done [] (length rest + length done) (n_pack rs (rest ++ done) (length rest) false)) /\
  (forall h t, 0 <= h <= 9 -> packed_n (2 * length t + 1) rs done [h] (length t + S (length done))
     (n_pack rs (t ++ h :: done) (S (length t)) true)).
Proof.
  induction rs as [|c rs IH]; intros done; (split; [intros rest|intros h t Hh]).
  - split; [intros _|rewrite firstn_nil; discriminate].
    exists (repeat 0 (length rest)). cbn [n_pack]. rewrite firstn_nil. cbn [map rev app length]. rewrite Nat.sub_0_r, repeat_length, app_nil_r.
    split; [|split; [apply bytes_repeat; unfold is_byte; lia|split; [apply nibbles_00|reflexivity]]].
    rewrite pad_00_ok by reflexivity. reflexivity.
  - split; [intros _|rewrite firstn_nil; discriminate].
    exists (repeat 0 (length t) ++ [h]). cbn [n_pack]. rewrite firstn_nil. cbn [map rev app length]. rewrite Nat.sub_0_r, app_length, repeat_length. cbn [length].
    split; [|split; [apply bytes_app_intro; [apply bytes_repeat; unfold is_byte; lia|constructor; [unfold is_byte; lia|constructor]]|split; [|lia]]].
    + replace (S (length t) - 1)%nat with (length t) by lia. rewrite pad_00_ok by reflexivity. cbn [bind]. rewrite <- app_assoc. reflexivity.
    + rewrite nibbles_app, nibbles_00, nibbles_cons. cbn [nibbles flat_map].
      rewrite Z.div_small, Z.mod_small by lia. rewrite repeat_app. rewrite <- app_assoc. reflexivity.
  - destruct (@exists_last _ (0 :: rest)) as (q & z & Eq); [discriminate|]. clear q z Eq.
    destruct rest as [|x rest0].
    + split; [intros _|cbn; discriminate]. exists []. cbn. split; [reflexivity|]. split; [constructor|]. split; [reflexivity|lia].
    + destruct (@exists_last _ (x :: rest0)) as (t & y & Et); [discriminate|]. rewrite Et. clear x rest0 Et.
      rewrite app_length. cbn [length]. replace (length t + 1)%nat with (S (length t)) by lia. cbn [n_pack].
      replace (2 * S (length t))%nat with (S (2 * length t + 1)) by lia. cbn [firstn]. rewrite <- app_assoc. cbn [app].
      destruct (is_num c) eqn:C.
      * apply is_num_spec in C. rewrite wr_app by reflexivity. cbn [bind].
        destruct (IH done) as (_ & IH2). specialize (IH2 (dig c) t ltac:(unfold dig; lia)).
        destruct IH2 as (G1 & G2). change (c - 0x30) with (dig c). replace (S (length t) + length done)%nat with (length t + S (length done))%nat by lia. split.
        -- intros F. cbn [firstn forallb] in F. apply andb_true_iff in F as (_ & F). destruct (G1 F) as (b & Eb & Bb & Nb & Lb).
           exists b. split; [exact Eb|]. split; [exact Bb|]. split; [|lia]. rewrite Nb. cbn [firstn map rev length]. rewrite app_nil_r. reflexivity.
        -- intros F. cbn [firstn forallb] in F. assert (F2 : forallb is_num (firstn (2 * length t + 1) rs) = false).
           { destruct (forallb is_num (firstn (2 * length t + 1) rs)); [|reflexivity]. rewrite andb_true_r in F. apply is_num_spec in C. congruence. }
           exact (G2 F2).
      * split; [cbn [firstn forallb]; rewrite C; discriminate|]. intros _. eexists; split; [reflexivity|]. rewrite app_length; cbn [length]; lia.
  - cbn [n_pack]. replace (2 * length t + 1)%nat with (S (2 * length t)) by lia. cbn [firstn].
    destruct (is_num c) eqn:C.
    + apply is_num_spec in C. rewrite rd_app_mid by reflexivity. cbn [bind].
      assert (E : u8 (Z.lor h (Z.shiftl (c - 0x30) 4)) = dig c * 16 + h).
      { rewrite Z.lor_comm, lor_shiftl by (change (2 ^ 4) with 16; lia). change (2 ^ 4) with 16. unfold dig. apply u8_id. lia. }
      rewrite E, wr_app by reflexivity. cbn [bind].
      set (b0 := dig c * 16 + h). destruct (IH (b0 :: done)) as (IH1 & _). destruct (IH1 t) as (G1 & G2). cbn [length] in G1, G2. split.
      * intros F. cbn [firstn forallb] in F. apply andb_true_iff in F as (_ & F). destruct (G1 F) as (b & Eb & Bb & Nb & Lb).
        exists (b ++ [b0]). split; [rewrite Eb, <- app_assoc; reflexivity|].
        split; [apply bytes_app_intro; [exact Bb|constructor; [unfold is_byte, b0, dig; lia|constructor]]|].
        split; [|rewrite app_length; cbn [length] in *; lia].
        rewrite nibbles_app, nibbles_cons, Nb. cbn [nibbles flat_map]. unfold b0.
        destruct (nib_split (dig c) h ltac:(unfold dig; lia) ltac:(lia)) as (-> & ->).
        cbn [firstn map rev length]. rewrite app_nil_r, <- !app_assoc. reflexivity.
      * intros F. cbn [firstn forallb] in F. assert (F2 : forallb is_num (firstn (2 * length t) rs) = false).
        { destruct (forallb is_num (firstn (2 * length t) rs)); [|reflexivity]. rewrite andb_true_r in F. apply is_num_spec in C. congruence. }
        destruct (G2 F2) as (b & Eb & Lb). exists b. split; [exact Eb|]. lia.
    + split; [cbn [firstn forallb]; rewrite C; discriminate|]. intros _. eexists; split; [reflexivity|]. rewrite app_length; cbn [length]; reflexivity.
Qed.
(** The last [n] elements. *)
Lemma rev_firstn_rev {A} n (l : list A) : rev (firstn n (rev l)) = skipn (length l - n) l.
Proof.
  destruct (Nat.leb_spec n (length l)).
  - rewrite firstn_rev, rev_involutive. reflexivity.
  - rewrite firstn_all2 by (rewrite rev_length; lia). rewrite rev_involutive. replace (length l - n)%nat with 0%nat by lia. reflexivity.
Qed.
Lemma pack_n s buf : buf <> [] ->
  let n := (2 * length buf)%nat in
  let last := skipn (length s - n) s in
  (Forall (fun c => 48 <= c <= 57) last -> exists new, str_to_format_n s buf = Ret (0, new) /\ length new = length buf /\ bytes new /\
     nibbles new = repeat 0 (n - length s) ++ map dig last) /\
  (~ Forall (fun c => 48 <= c <= 57) last -> exists new, str_to_format_n s buf = Ret (1, new) /\ length new = length buf).
Proof.
  intros Hb n last. unfold str_to_format_n. destruct (Nat.eqb_spec (length buf) 0) as [E|E]; [destruct buf; [contradiction|discriminate]|].
  destruct (n_pack_ok (rev s) []) as (G & _). destruct (G buf) as (G1 & G2). rewrite !app_nil_r in *. cbn [length] in *. fold n in G1, G2.
  rewrite Nat.add_0_r, rev_length in *.
  assert (Q : Forall (fun c => 48 <= c <= 57) last <-> forallb is_num (firstn n (rev s)) = true).
  { unfold last. rewrite <- rev_firstn_rev. rewrite forallb_forall, Forall_forall.
    split; intros H x I; apply is_num_spec; apply H; [|apply in_rev in I; exact I]. apply -> in_rev. exact I. }
  split; intros F.
  - apply Q in F. destruct (G1 F) as (b & Eb & Bb & Nb & Lb). exists b. rewrite app_nil_r in Eb. split; [exact Eb|]. split; [lia|]. split; [exact Bb|].
    rewrite Nb, <- map_rev, rev_firstn_rev. reflexivity.
  - assert (F2 : forallb is_num (firstn n (rev s)) = false) by (destruct (forallb is_num (firstn n (rev s))) eqn:X; [exfalso; apply F, Q; reflexivity|reflexivity]).
    destruct (G2 F2) as (b & Eb & Lb). exists b; auto.
Qed.
Lemma number_zeros k ds : number (repeat 0 k ++ ds) = number ds.
Proof.
  rewrite number_app. assert (number (repeat 0 k) = 0) as ->; [|lia].
  induction k as [|k IH]; [reflexivity|]. cbn [repeat]. rewrite number_cons, IH. lia.
Qed.
Lemma decval_number l : decval l = number (nibbles l).
Proof.
  induction l as [|b l IH]; [reflexivity|]. rewrite dec_cons, nibbles_cons, !number_cons, IH.
  assert (E : Zlen (nibbles l) = 2 * Zlen l) by (unfold Zlen; rewrite nibbles_len; lia).
  assert (E2 : Zlen (b mod 16 :: nibbles l) = 1 + 2 * Zlen l) by (unfold Zlen in *; cbn [length]; lia).
  rewrite E, E2. rewrite Z.pow_add_r by (unfold Zlen; lia). rewrite Z.pow_mul_r by (unfold Zlen; lia). change (10 ^ 2) with 100. change (10 ^ 1) with 10. ring.
Qed.
Lemma n_value ds buf : digits ds -> buf <> [] ->
  exists new, str_to_format_n (chars ds) buf = Ret (0, new) /\ length new = length buf /\ bcd new /\
    nibbles new = repeat 0 (2 * length buf - length ds) ++ skipn (length ds - 2 * length buf) ds /\
    decval new = number ds mod 10 ^ (2 * Zlen buf) /\
    format_n_to_uint new = (0, Some (u32 (number ds mod 10 ^ (2 * Zlen buf)))).
Proof.
  intros D Hb. destruct (pack_n (chars ds) buf Hb) as (G & _).
  assert (Lc : length (chars ds) = length ds) by apply map_length. rewrite Lc in G.
  set (k := (length ds - 2 * length buf)%nat) in *.
  assert (SK : skipn k (chars ds) = chars (skipn k ds)) by apply skipn_map.
  assert (Dk : digits (skipn k ds)) by (unfold digits in *; rewrite <- (firstn_skipn k ds) in D; apply Forall_app in D; apply D).
  rewrite SK in G. destruct (G (chars_num _ Dk)) as (new & E & Ln & Bn & Nn). rewrite dig_chars in Nn.
  assert (Bc : bcd new).
  { apply bcd_digits; [exact Bn|]. rewrite Nn. apply Forall_app; split; [|exact Dk]. clear. induction (2 * length buf - length ds)%nat; constructor; [lia|assumption]. }
  assert (V : decval new = number ds mod 10 ^ (2 * Zlen buf)).
  { rewrite decval_number, Nn, number_zeros. rewrite <- (firstn_skipn k ds) at 2. rewrite number_app.
    pose proof (number_range _ Dk) as R.
    destruct (Nat.leb_spec (length ds) (2 * length buf)) as [C|C].
    - assert (K0 : k = 0%nat) by (unfold k; lia). rewrite K0 in *. cbn [firstn skipn] in *. unfold number at 2. cbn [fold_left]. rewrite Z.mul_0_l, Z.add_0_l.
      symmetry. apply Z.mod_small. split; [lia|]. assert (10 ^ Zlen ds <= 10 ^ (2 * Zlen buf)) by (apply Z.pow_le_mono_r; unfold Zlen; lia). lia.
    - assert (ZL : Zlen (skipn k ds) = 2 * Zlen buf) by (unfold Zlen; rewrite skipn_length; unfold k; lia). rewrite ZL in *.
      rewrite Z.add_comm, Z_mod_plus_full. symmetry. apply Z.mod_small. exact R. }
  exists new. split; [exact E|]. split; [exact Ln|]. split; [exact Bc|]. split; [exact Nn|]. split; [exact V|].
  rewrite n_to_uint_bcd; [rewrite V; reflexivity|exact Bc|]. intros ->. destruct buf; [contradiction|discriminate].
Qed.

(** ** String lists *)
(** The iterator after the text [c] has been written into [old]. *)
Definition at_text (old c : list Z) (itr : str_itr) : Prop :=
  (length c < length old)%nat /\ s_buf itr = into old (c ++ [0]) /\ s_off itr = length c /\ s_len itr = (length old - length c)%nat.
Lemma put_into old c x v : (length c + length v <= length old)%nat -> 
  put (into old (c ++ x)) (length c) v = Ret (c ++ v ++ skipn (length v) (x ++ skipn (length c + length x) old)).
Proof.
  intros H. assert (L : (length c + length v <= length (into old (c ++ x)))%nat).
  { unfold into. rewrite !app_length, skipn_length. lia. }
  rewrite put_Ret by exact L. f_equal. unfold into. rewrite <- app_assoc, app_length.
  rewrite firstn_length_app. f_equal. f_equal. rewrite skipn_app. rewrite skipn_all2 by lia. cbn [app].
  f_equal. lia.
Qed.
(** Text [t] written over a terminator. *)
Lemma put_over old c z v : (z = [] \/ z = [0]) -> v <> [] -> (length c + length v <= length old)%nat ->
  put (into old (c ++ z)) (length c) v = Ret (into old (c ++ v)).
Proof.
  intros Hz Hv H. rewrite put_into by exact H. f_equal. unfold into. rewrite <- app_assoc, app_length. f_equal. f_equal.
  destruct Hz as [-> | ->].
  - cbn [length app]. rewrite skipn_skipn'. f_equal. lia.
  - destruct v as [|v0 v]; [contradiction|]. cbn [length app skipn]. rewrite skipn_skipn'. f_equal. lia.
Qed.
Lemma wr_last old c x y v : wr (into old (c ++ [x])) (length c) y = Ret (into old (c ++ [y])) /\
  (length c + 1 < length old -> wr (into old (c ++ [x])) (length c + 1) v = Ret (into old (c ++ [x; v])))%nat.
Proof.
  split.
  - unfold into. rewrite <- app_assoc. cbn [app]. rewrite wr_app by reflexivity. rewrite !app_length. cbn [length]. rewrite <- app_assoc. reflexivity.
  - intros H. rewrite wr_into by (rewrite ?app_length; cbn [length]; lia). rewrite <- app_assoc. reflexivity.
Qed.
Definition start (old : list Z) (itr : str_itr) : Prop := s_buf itr = old /\ s_off itr = 0%nat /\ s_len itr = length old.
(** Either nothing written yet or the text [c] written. *)
Definition at_any (old c : list Z) (itr : str_itr) : Prop := (c = [] /\ start old itr) \/ at_text old c itr.
Lemma at_any_buf old c itr : at_any old c itr ->
  exists z, (z = [] \/ z = [0]) /\ s_buf itr = into old (c ++ z) /\ s_off itr = length c /\ s_len itr = (length old - length c)%nat /\ (length c <= length old)%nat.
Proof.
  intros [(-> & E1 & E2 & E3)|(L & E1 & E2 & E3)].
  - exists []. cbn [app length]. rewrite into_nil. repeat split; auto; lia.
  - exists [0]. repeat split; auto; lia.
Qed.
Lemma add_emv old c itr t : at_any old c itr ->
  (length old - length c < 3 -> str_list_add itr t = Ret itr)%nat /\
  (3 <= length old - length c -> exists itr', str_list_add itr t = Ret itr' /\
     at_text old (c ++ firstn (length old - length c - 2) t ++ [10%Z]) itr')%nat.
Proof.
  intros A. destruct (at_any_buf _ _ _ A) as (z & Hz & Eb & Eo & El & Lc). unfold str_list_add. rewrite Eb, Eo, El.
  split; intros H; destruct (Nat.ltb_spec (length old - length c) 3); try lia; [reflexivity|].
  set (mx := (length old - length c - 1)%nat).
  destruct mx as [|m] eqn:M; [unfold mx in M; lia|]. cbn [snprintf]. rewrite <- M.
  assert (Em : m = (length old - length c - 2)%nat) by (unfold mx in M; lia). rewrite <- Em.
  set (w := firstn m t).
  assert (Lw : (length w = Nat.min m (length t))%nat) by apply firstn_length.
  rewrite put_over; [|exact Hz|destruct w; discriminate|rewrite app_length; cbn [length]; unfold mx in M; lia]. cbn [bind].
  replace (if (mx <=? length t)%nat then (mx - 1)%nat else length t) with (length w).
  2:{ destruct (Nat.leb_spec mx (length t)); lia. }
  rewrite app_assoc. destruct (wr_last old (c ++ w) 0 10 0) as (W1 & _). rewrite app_length in W1. rewrite W1. cbn [bind].
  destruct (wr_last old (c ++ w) 10 0 0) as (_ & W2). rewrite app_length in W2.
  replace (length c + S (length w))%nat with (length c + length w + 1)%nat by lia. rewrite W2 by (unfold mx in M; lia). cbn [bind].
  eexists; split; [reflexivity|]. unfold at_text. cbn [s_buf s_off s_len].
  rewrite !app_length. cbn [length]. repeat split; try lia. rewrite <- !app_assoc. reflexivity.
Qed.
Lemma add_iso old c itr t : at_any old c itr ->
  (length old - length c < length t + 2 -> iso_str_list_add itr t = Ret itr)%nat /\
  (length t + 2 <= length old - length c -> exists itr', iso_str_list_add itr t = Ret itr' /\
     at_text old (c ++ t ++ [10%Z]) itr')%nat.
Proof.
  intros A. destruct (at_any_buf _ _ _ A) as (z & Hz & Eb & Eo & El & Lc). unfold iso_str_list_add. rewrite Eb, Eo, El.
  split; intros H; destruct (Nat.ltb_spec (length old - length c) (length t + 2)); try lia; [reflexivity|].
  assert (P : exists b z', put (into old (c ++ z)) (length c) t = Ret b /\ b = into old ((c ++ t) ++ z') /\ (z' = [] \/ z' = [0])).
  { destruct t as [|t0 t].
    - exists (into old (c ++ z)), z. rewrite app_nil_r. split; [|split; [reflexivity|exact Hz]].
      rewrite put_Ret by (cbn [length]; destruct Hz as [-> | ->]; rewrite ?app_nil_r, into_len; rewrite ?app_length; cbn [length] in *; lia).
      f_equal. cbn [length app]. rewrite Nat.add_0_r. apply firstn_skipn.
    - exists (into old (c ++ t0 :: t)), []. rewrite app_nil_r. split; [|auto]. apply put_over; [exact Hz|discriminate|]. cbn [length] in *. lia. }
  destruct P as (b & z' & -> & -> & Hz'). cbn [bind].
  assert (W : wr (into old ((c ++ t) ++ z')) (length c + length t) 10 = Ret (into old ((c ++ t) ++ [10]))).
  { rewrite <- app_length. destruct Hz' as [-> | ->].
    - rewrite app_nil_r. apply wr_into; [reflexivity|]. rewrite app_length; lia.
    - apply (wr_last old (c ++ t) 0 10 0). }
  rewrite W. cbn [bind].
  destruct (wr_last old (c ++ t) 10 0 0) as (_ & W2). rewrite app_length in W2.
  replace (length c + S (length t))%nat with (length c + length t + 1)%nat by lia. rewrite W2 by lia. cbn [bind].
  eexists; split; [reflexivity|]. unfold at_text. cbn [s_buf s_off s_len].
  rewrite !app_length. cbn [length]. repeat split; try lia. rewrite <- !app_assoc. reflexivity.
Qed.

(** What is on the list after a sequence of additions. *)
Definition listed (old new content : list Z) : Prop := (content = [] /\ new = old) \/ text_in old new content.
Lemma at_any_listed old c itr : at_any old c itr -> listed old (s_buf itr) c.
Proof.
  intros [(-> & E1 & _)|(L & E1 & _)]; [left; auto|right]. rewrite E1. apply into_text; exact L.
Qed.
Lemma lines_app a b : lines (a ++ b) = lines a ++ lines b. Proof. apply flat_map_app. Qed.
Lemma add_all_full add (old c : list Z) itr texts :
  (forall t, add itr t = Ret itr) -> add_all add itr texts = Ret itr.
Proof. intros H. induction texts as [|t ts IH]; [reflexivity|]. cbn [add_all]. rewrite H. exact IH. Qed.
Lemma emv_list_gen texts : forall old done itr, at_any old (lines done) itr -> (lines done <> [] -> at_text old (lines done) itr) ->
  exists itr' c, add_all str_list_add itr texts = Ret itr' /\ at_any old c itr' /\ cut (length old) (done ++ texts) c /\
    (Forall (fun t => t <> []) texts -> (length (lines (done ++ texts)) < length old)%nat -> c = lines (done ++ texts)) /\
    (texts <> [] -> (length (lines done) + 3 <= length old)%nat -> at_text old c itr').
Proof.
  induction texts as [|t texts IH]; intros old done itr A AT.
  - exists itr, (lines done). cbn [add_all]. rewrite app_nil_r. split; [reflexivity|]. split; [exact A|]. split; [left; reflexivity|].
    split; [reflexivity|congruence].
  - destruct (add_emv _ _ _ t A) as (N & Y). destruct (Nat.ltb_spec (length old - length (lines done)) 3) as [F|F].
    + exists itr, (lines done). rewrite (add_all_full str_list_add old (lines done) itr (t :: texts)).
      2:{ intros t'. apply (add_emv _ _ _ t' A). exact F. }
      split; [reflexivity|]. split; [exact A|]. split.
      { right. exists (length done). rewrite app_length. cbn [length]. split; [lia|]. left. rewrite firstn_length_app. split; [reflexivity|lia]. }
      split; [|lia]. intros NE Fit. exfalso. inversion NE as [|? ? Ht _]; subst. rewrite lines_app, app_length in Fit. cbn [lines flat_map] in Fit. rewrite !app_length in Fit. cbn [length] in Fit.
      destruct t; [contradiction|]. cbn [length] in Fit. lia.
    + destruct (Y F) as (itr1 & E1 & A1). cbn [add_all]. rewrite E1. cbn [bind].
      destruct (Nat.leb_spec (length t) (length old - length (lines done) - 2)) as [Fit|Big].
      * rewrite firstn_all2 in A1 by exact Fit.
        assert (EL : lines (done ++ [t]) = lines done ++ t ++ [10]) by (rewrite lines_app; cbn [lines flat_map]; rewrite app_nil_r; reflexivity).
        rewrite <- EL in A1.
        destruct (IH old (done ++ [t]) itr1 (or_intror A1) (fun _ => A1)) as (itr' & c & E & A' & C & G & H).
        rewrite <- app_assoc in C, G. cbn [app] in C, G. exists itr', c. split; [exact E|]. split; [exact A'|]. split; [exact C|].
        split; [intros NE; inversion NE; subst; apply G; assumption|].
        intros _ _. destruct texts as [|t2 ts].
        -- cbn [add_all] in E. injection E as <-.
           destruct A' as [(-> & S1 & S2 & S3)|X]; [|exact X]. exfalso. destruct A1 as (_ & _ & O & _). rewrite EL, !app_length in O; cbn [length] in O. lia.
        -- destruct (Nat.leb_spec (length (lines (done ++ [t])) + 3) (length old)) as [Q|Q]; [apply H; [discriminate|exact Q]|].
           rewrite (add_all_full str_list_add old (lines (done ++ [t])) itr1) in E.
           2:{ intros t'. apply (add_emv _ _ _ t' (or_intror A1)). lia. }
           injection E as <-. destruct A' as [(-> & S1 & S2 & S3)|X]; [|exact X]. exfalso. destruct A1 as (_ & _ & O & _). rewrite EL, !app_length in O; cbn [length] in O. lia.
      * set (c := lines done ++ firstn (length old - length (lines done) - 2) t ++ [10]) in *.
        assert (Lc : length c = (length old - 1)%nat) by (unfold c; rewrite !app_length, firstn_length; cbn [length]; lia).
        exists itr1, c. rewrite (add_all_full str_list_add old c itr1 texts).
        2:{ intros t'. apply (add_emv _ _ _ t' (or_intror A1)). lia. }
        split; [reflexivity|]. split; [right; exact A1|]. split.
        { right. exists (length done). rewrite app_length. cbn [length]. split; [lia|]. right. exists (length old - length (lines done) - 2)%nat.
          rewrite app_nth2, Nat.sub_diag by lia. cbn [nth]. split; [lia|]. rewrite firstn_length_app. split; [reflexivity|]. lia. }
        split; [|intros _ _; exact A1]. intros _ Q. exfalso. rewrite lines_app, app_length in Q. cbn [lines flat_map] in Q. rewrite !app_length in Q. cbn [length] in Q. lia.
Qed.
Lemma emv_list texts str : exists itr c, add_all str_list_add (str_list_init str) texts = Ret itr /\ listed str (s_buf itr) c /\
  cut (length str) texts c /\
  (Forall (fun t => t <> []) texts -> (length (lines texts) < length str)%nat -> c = lines texts) /\
  (texts <> [] -> (3 <= length str)%nat -> text_in str (s_buf itr) c) /\
  (texts = [] \/ (length str < 3)%nat -> s_buf itr = str).
Proof.
  assert (A : at_any str [] (str_list_init str)) by (left; split; [reflexivity|split; [reflexivity|split; reflexivity]]).
  destruct (emv_list_gen texts str [] (str_list_init str) A ltac:(cbn; congruence)) as (itr & c & E & A' & C & G & H).
  exists itr, c. split; [exact E|]. split; [apply at_any_listed; exact A'|]. split; [exact C|]. split; [exact G|]. split.
  - intros N L. destruct (H N L) as (L' & -> & _). apply into_text. exact L'.
  - intros [-> |L]; [cbn in E; injection E as <-; reflexivity|].
    rewrite (add_all_full str_list_add str [] (str_list_init str)) in E; [injection E as <-; reflexivity|].
    intros t. apply (add_emv str [] _ t A). cbn [length]. lia.
Qed.

Lemma iso_list_gen texts : forall old c itr, at_any old c itr ->
  exists itr', add_all iso_str_list_add itr texts = Ret itr' /\
    at_any old (c ++ lines (fitting (length old - length c) texts)) itr' /\
    (fitting (length old - length c) texts <> [] -> at_text old (c ++ lines (fitting (length old - length c) texts)) itr') /\
    (fitting (length old - length c) texts = [] -> itr' = itr).
Proof.
  induction texts as [|t texts IH]; intros old c itr A; cbn [add_all fitting].
  - exists itr. cbn [lines flat_map]. rewrite app_nil_r. split; [reflexivity|]. split; [exact A|]. split; [congruence|auto].
  - destruct (add_iso _ _ _ t A) as (N & Y). destruct (Nat.leb_spec (length t + 2) (length old - length c)) as [F|F].
    + destruct (Y F) as (itr1 & E1 & A1). rewrite E1. cbn [bind].
      destruct (IH old _ itr1 (or_intror A1)) as (itr' & E & A' & G & H).
      assert (EL : (length old - length (c ++ t ++ [10%Z]) = length old - length c - (length t + 1))%nat) by (rewrite !app_length; cbn [length]; lia).
      rewrite EL in *. exists itr'. split; [exact E|].
      assert (EC : c ++ lines (t :: fitting (length old - length c - (length t + 1)) texts) = (c ++ t ++ [10]) ++ lines (fitting (length old - length c - (length t + 1)) texts)).
      { cbn [lines flat_map]. rewrite <- !app_assoc. reflexivity. }
      rewrite EC. split; [exact A'|]. split; [|discriminate]. intros _.
      destruct (fitting (length old - length c - (length t + 1)) texts) as [|x xs] eqn:EF; [|apply G; discriminate].
      rewrite (H eq_refl). cbn [lines flat_map]. rewrite app_nil_r. exact A1.
    + rewrite N by lia. cbn [bind]. apply IH; exact A.
Qed.
Lemma fitting_all texts : forall n, (length (lines texts) < n)%nat -> fitting n texts = texts.
Proof.
  induction texts as [|t ts IH]; intros n H; [reflexivity|]. cbn [fitting lines flat_map] in *. fold (lines ts) in H. rewrite !app_length in H. cbn [length] in H.
  destruct (Nat.leb_spec (length t + 2) n); [|lia]. f_equal. apply IH. lia.
Qed.
Lemma iso_list texts str : exists itr, add_all iso_str_list_add (str_list_init str) texts = Ret itr /\
  let kept := fitting (length str) texts in
  (kept <> [] -> text_in str (s_buf itr) (lines kept)) /\
  (kept = [] -> s_buf itr = str) /\
  ((length (lines texts) < length str)%nat -> kept = texts).
Proof.
  assert (A : at_any str [] (str_list_init str)) by (left; split; [reflexivity|split; [reflexivity|split; reflexivity]]).
  destruct (iso_list_gen texts str [] _ A) as (itr & E & A' & G & H). cbn [length app] in *. rewrite Nat.sub_0_r in *.
  exists itr. split; [exact E|]. split; [|split].
  - intros N. destruct (G N) as (L & -> & _). apply into_text; exact L.
  - intros N. rewrite (H N). reflexivity.
  - apply fitting_all.
Qed.

(** ** The statements of the properties *)
Lemma date_text_len d : length d = 6%nat -> length (date_text d) = 11%nat.
Proof. intros H. destruct d as [|? [|? [|? [|? [|? [|? [|]]]]]]]; cbn in H; try lia. reflexivity. Qed.
Lemma time_text_len d : length d = 6%nat -> length (time_text d) = 9%nat.
Proof. intros H. destruct d as [|? [|? [|? [|? [|? [|? [|]]]]]]]; cbn in H; try lia. reflexivity. Qed.
Lemma bcd_dec l : bcd l \/ ~ bcd l.
Proof.
  induction l as [|b l [IH|IH]]; [left; constructor| |right; intros H; inversion H; contradiction].
  destruct (Z.leb_spec 0 b), (Z.ltb_spec b 256), (Z.leb_spec (b / 16) 9), (Z.leb_spec (b mod 16) 9);
    try (right; intros H'; inversion H' as [|? ? (X & Y & W) _]; unfold is_byte in X; lia).
  left. constructor; [unfold is_byte; lia|exact IH].
Qed.
Lemma date_time_exact1 loc min fmt val str : bytes val -> str <> [] -> (6 <= length loc < 8)%nat -> (forall d, length d = 6%nat -> length (fmt d) = min) ->
  (date_time loc min fmt val str = UB <-> bcd val /\ length val = 3%nat /\ (min <= length str)%nat) /\
  (forall r new, date_time loc min fmt val str = Ret (r, new) -> r <> 0 /\ new = str).
Proof.
  intros B Hs HL F. destruct (date_time_cases loc min fmt val str B ltac:(lia) F) as (C1 & _ & C3 & C4 & C5 & C6).
  destruct val as [|v val'] eqn:EV.
  { rewrite C1 by reflexivity. split; [split; [discriminate|intros (_ & X & _); discriminate]|]. intros r new E; injection E as <- <-. split; [lia|reflexivity]. }
  rewrite <- EV in *. assert (Hv : val <> []) by (rewrite EV; discriminate). clear EV v val'.
  destruct (Nat.eq_dec (length val) 3) as [L3|L3].
  2:{ rewrite (C3 Hv Hs L3). split; [split; [discriminate|intros (_ & X & _); contradiction]|]. intros r new E; injection E as <- <-. split; [lia|reflexivity]. }
  destruct (Nat.ltb_spec (length str) min) as [Lm|Lm].
  { rewrite (C4 L3 Hs Lm). split; [split; [discriminate|lia]|]. intros r new E; injection E as <- <-. split; [lia|reflexivity]. }
  destruct (bcd_dec val) as [D|D].
  - rewrite (C6 L3 Hs Lm D). destruct (Nat.ltb_spec (length loc) 8); [|lia]. split; [tauto|discriminate].
  - destruct (C5 L3 Hs Lm D) as (r0 & -> & R). split; [split; [discriminate|tauto]|]. intros r new E; injection E as <- <-. split; [lia|reflexivity].
Qed.
Lemma date_time_exact val str : bytes val -> str <> [] ->
  (date_get_string val str = UB <-> bcd val /\ length val = 3%nat /\ (11 <= length str)%nat) /\
  (time_get_string val str = UB <-> bcd val /\ length val = 3%nat /\ (9 <= length str)%nat) /\
  (forall r new, date_get_string val str = Ret (r, new) -> r <> 0 /\ new = str) /\
  (forall r new, time_get_string val str = Ret (r, new) -> r <> 0 /\ new = str).
Proof.
  intros B Hs.
  destruct (date_time_exact1 (repeat 0 7) 11 date_text val str B Hs ltac:(cbn; lia) date_text_len) as (D1 & D2).
  destruct (date_time_exact1 (repeat 0 7) 9 time_text val str B Hs ltac:(cbn; lia) time_text_len) as (T1 & T2).
  split; [exact D1|]. split; [exact T1|]. split; assumption.
Qed.
Lemma date_time_text loc y m d str : (8 <= length loc)%nat -> bcd [y; m; d] ->
  let two b := chars [b / 16; b mod 16] in
  ((11 <= length str)%nat -> exists new, date_time loc 11 date_text [y; m; d] str = Ret (0, new) /\
     text_in str new ([50; 48] ++ two y ++ [45] ++ two m ++ [45] ++ two d)) /\
  ((9 <= length str)%nat -> exists new, date_time loc 9 time_text [y; m; d] str = Ret (0, new) /\
     text_in str new (two y ++ [58] ++ two m ++ [58] ++ two d)).
Proof.
  intros HL D two. assert (B : bytes [y; m; d]).
  { unfold bytes. revert D. apply Forall_impl. intros a (X & _). exact X. }
  split; intros L.
  - destruct (date_time_cases loc 11 date_text [y; m; d] str B ltac:(lia) date_text_len) as (_ & _ & _ & _ & _ & C).
    eexists; split; [rewrite C; [|reflexivity|intros ->; cbn in L; lia|exact L|exact D]; destruct (Nat.ltb_spec (length loc) 8); [lia|reflexivity]|].
    refine (into_text str (([50; 48] ++ two y ++ [45] ++ two m ++ [45] ++ two d)) _). change (10 < length str)%nat. lia.
  - destruct (date_time_cases loc 9 time_text [y; m; d] str B ltac:(lia) time_text_len) as (_ & _ & _ & _ & _ & C).
    eexists; split; [rewrite C; [|reflexivity|intros ->; cbn in L; lia|exact L|exact D]; destruct (Nat.ltb_spec (length loc) 8); [lia|reflexivity]|].
    refine (into_text str ((two y ++ [58] ++ two m ++ [58] ++ two d)) _). change (8 < length str)%nat. lia.
Qed.
Lemma number_exact v str : 0 <= v < 4294967296 ->
  exists ds, decimal v ds /\ (forall ds', decimal v ds' -> ds' = ds) /\
  ((length str < 2)%nat -> uint_to_str v str = Ret (-2, str)) /\
  ((2 <= length str)%nat -> (length ds < length str)%nat ->
     exists new, uint_to_str v str = Ret (0, new) /\ text_in str new (chars ds)) /\
  ((2 <= length str)%nat -> (length str <= length ds)%nat -> uint_to_str v str = UB).
Proof.
  intros Hv. destruct (decimal_exists v ltac:(lia)) as (ds & D). exists ds. split; [exact D|].
  split; [intros ds' D'; exact (decimal_unique v ds' ds D' D)|]. exact (uint_cases v ds str Hv D).
Qed.
Lemma number_11 v str : 0 <= v < 4294967296 -> (11 <= length str)%nat ->
  exists ds new, decimal v ds /\ uint_to_str v str = Ret (0, new) /\ text_in str new (chars ds).
Proof.
  intros Hv L. destruct (number_exact v str Hv) as (ds & D & _ & _ & C & _).
  assert (Ld : (length ds <= 10)%nat).
  { destruct (Z.ltb_spec 0 v) as [P|P].
    - pose proof (decimal_lead v ds D P) as (Lo & _). destruct (Nat.leb_spec (length ds) 10) as [X|X]; [exact X|exfalso].
      assert (10 ^ 10 <= 10 ^ (Zlen ds - 1)) by (apply Z.pow_le_mono_r; unfold Zlen; lia). lia.
    - assert (v = 0) by lia. subst v.
      assert (Z0 : decimal 0 [0]) by (unfold decimal; split; [repeat constructor; lia|split; [reflexivity|split; [discriminate|reflexivity]]]).
      rewrite (decimal_unique 0 ds [0] D Z0). cbn. lia. }
  destruct (C ltac:(lia) ltac:(lia)) as (new & E & T). exists ds, new. auto.
Qed.
Lemma be4_range val : bytes val -> (length val <= 4)%nat -> 0 <= be val < 4294967296.
Proof.
  intros B L. destruct val as [|a [|b [|c [|d [|]]]]]; cbn [length] in L; try lia; unfold bytes in B;
  repeat match goal with H : Forall _ (_ :: _) |- _ => inversion H; clear H; subst end; unfold is_byte, be in *; cbn [fold_left] in *; lia.
Qed.
Lemma amount_text val str : bytes val -> val <> [] -> (11 <= length str)%nat ->
  ((length val <= 4)%nat -> exists ds new, decimal (be val) ds /\ amount_get_string val str = Ret (0, new) /\ text_in str new (chars ds)) /\
  ((4 < length val)%nat -> amount_get_string val str = Ret (-2, str)).
Proof.
  intros B Hv L. unfold amount_get_string.
  destruct (Nat.eqb_spec (length val) 0) as [E|E]; [destruct val; [contradiction|discriminate]|].
  destruct (Nat.eqb_spec (length str) 0) as [E2|E2]; [lia|].
  split; intros L4.
  - rewrite b_to_uint_ok by (try assumption; lia). cbn [Z.eqb negb]. apply number_11; [apply be4_range; assumption|exact L].
  - unfold format_b_to_uint. destruct val; [contradiction|]. destruct (Nat.ltb_spec 4 (length (z :: val))); [reflexivity|lia].
Qed.
Lemma numeric_text val str : bytes val -> val <> [] -> (11 <= length str)%nat ->
  (bcd val -> decval val < 4294967296 ->
     exists ds new, decimal (decval val) ds /\ format_n_get_string val str = Ret (0, new) /\ text_in str new (chars ds)) /\
  (~ bcd val -> exists r, (r = 1 \/ r = 2) /\ format_n_get_string val str = Ret (r, str)).
Proof.
  intros B Hv L. unfold format_n_get_string. split.
  - intros D Hd. rewrite (n_to_uint_bcd val D Hv). cbn [Z.eqb negb]. pose proof (dec_range val D).
    rewrite u32_id by lia. apply number_11; [lia|exact L].
  - intros D. pose proof (n_to_uint_err val B Hv D) as R. destruct (format_n_to_uint val) as (r & v). cbn [fst] in R. exists r.
    split; [exact R|]. destruct (Z.eqb_spec r 0); [lia|reflexivity].
Qed.
Lemma track2_safe val str : bytes val -> (2 * length val < length str)%nat -> track2_get_string val str <> UB.
Proof.
  intros B L. destruct val as [|v val'] eqn:EV; [cbn; discriminate|]. rewrite <- EV in *.
  assert (Hv : val <> []) by (rewrite EV; discriminate). assert (Hs : str <> []) by (intros ->; cbn in L; lia).
  destruct (track2_cases val str B Hv Hs) as (C & _). pose proof (before_pad_le (nibbles val)) as P. rewrite nibbles_len in P.
  destruct (C ltac:(lia)) as (new & -> & _). discriminate.
Qed.
Lemma n_fits ds buf : digits ds -> buf <> [] -> (length ds <= 2 * length buf)%nat -> number ds < 4294967296 ->
  exists new, str_to_format_n (chars ds) buf = Ret (0, new) /\ length new = length buf /\
    nibbles new = repeat 0 (2 * length buf - length ds) ++ ds /\ format_n_to_uint new = (0, Some (number ds)).
Proof.
  intros D Hb L Hn. destruct (n_value ds buf D Hb) as (new & E & Ln & _ & Nn & _ & F).
  exists new. split; [exact E|]. split; [exact Ln|].
  replace (length ds - 2 * length buf)%nat with 0%nat in Nn by lia. split; [exact Nn|].
  rewrite F. pose proof (number_range ds D) as R.
  assert (10 ^ Zlen ds <= 10 ^ (2 * Zlen buf)) by (apply Z.pow_le_mono_r; unfold Zlen; lia).
  rewrite (Z.mod_small (number ds)) by lia. rewrite u32_id by lia. reflexivity.
Qed.
Lemma emv_list' texts str :
  exists itr c, add_all str_list_add (str_list_init str) texts = Ret itr /\
  cut (length str) texts c /\
  (Forall (fun t => t <> []) texts -> (length (lines texts) < length str)%nat -> c = lines texts) /\
  (texts <> [] -> (3 <= length str)%nat -> text_in str (s_buf itr) c) /\
  (texts = [] \/ (length str < 3)%nat -> s_buf itr = str).
Proof. destruct (emv_list texts str) as (itr & c & E & _ & R). exists itr, c. split; [exact E|exact R]. Qed.
Lemma text_formats1 f ok (P : Z -> Prop) val str : (forall c, ok c = true <-> P c) -> f = text_get_string ok ->
    ((val = [] \/ str = []) -> f val str = Ret (-1, str)) /\
    (val <> [] -> str <> [] -> (length str <= length val)%nat -> f val str = Ret (-2, str)) /\
    (val <> [] -> (length val < length str)%nat -> Forall P val -> exists new, f val str = Ret (0, new) /\ text_in str new val) /\
    (val <> [] -> (length val < length str)%nat -> ~ Forall P val -> exists new, f val str = Ret (1, new) /\ length new = length str).
Proof.
  intros H ->. destruct (text_cases ok val str) as (C1 & C2 & C3 & C4).
  assert (Q : Forall P val <-> forallb ok val = true).
  { rewrite forallb_forall, Forall_forall. split; intros X x I; apply H, X, I. }
  split; [intros [-> | ->]; apply C1; cbn; lia|]. split; [exact C2|]. split.
  - intros Hv L F. apply C3; try assumption. apply Q; exact F.
  - intros Hv L F. apply C4; try assumption. destruct (forallb ok val); [exfalso; apply F, Q; reflexivity|reflexivity].
Qed.
Lemma text_formats val str :
  let spec (f : list Z -> list Z -> out (Z * list Z)) (ok : Z -> Prop) :=
    ((val = [] \/ str = []) -> f val str = Ret (-1, str)) /\
    (val <> [] -> str <> [] -> (length str <= length val)%nat -> f val str = Ret (-2, str)) /\
    (val <> [] -> (length val < length str)%nat -> Forall ok val -> exists new, f val str = Ret (0, new) /\ text_in str new val) /\
    (val <> [] -> (length val < length str)%nat -> ~ Forall ok val -> exists new, f val str = Ret (1, new) /\ length new = length str) in
  let letter c := 65 <= c <= 90 \/ 97 <= c <= 122 in
  let digit c := 48 <= c <= 57 in
  spec format_a_get_string letter /\
  spec format_an_get_string (fun c => digit c \/ letter c) /\
  spec format_ans_only_space_get_string (fun c => digit c \/ letter c \/ c = 32) /\
  spec format_ans_ccs_get_string (fun c => 32 <= c <= 127).
Proof.
  intros spec letter digit. unfold spec, letter, digit.
  split; [|split; [|split]]; (eapply text_formats1; [|reflexivity]); intros c; unfold is_num, is_alpha; lia.
Qed.
Lemma value_text fmt max tag val str : bytes val -> str <> [] ->
  (tag = 0x9F12 -> max <> 0%nat) -> (fmt = FormatN -> (11 <= length str)%nat \/ (max <> 0%nat /\ Nat.even max = true)) ->
  exists r new, tlv_value_get_string fmt max tag val str = Ret (r, new) /\ length new = length str /\
    (r = 0 -> exists txt, text_in str new txt) /\
    (r <> 0 -> new = str \/ exists rest, new = 0 :: rest).
Proof.
  intros B Hs H12 HN. unfold tlv_value_get_string.
  destruct (Nat.eqb_spec (length str) 0) as [E|E]; [destruct str; [contradiction|discriminate]|].
  set (too := (negb (max =? 0)%nat && _)%bool).
  destruct too eqn:TOO.
  { eexists _, str. split; [reflexivity|]. split; [reflexivity|]. split; [destruct fmt; discriminate|left; reflexivity]. }
  destruct (negb (max =? 0)%nat && (length str <? max + 1)%nat)%bool eqn:SH.
  { eexists _, str. split; [reflexivity|]. split; [reflexivity|]. split; [discriminate|left; reflexivity]. }
  (* the outcome of the format function *)
  assert (G : forall (m : out (Z * list Z)),
    (exists r new, m = Ret (r, new) /\ length new = length str /\ (r = 0 -> exists txt, text_in str new txt)) ->
    exists r new, (let* (r, str') := m in if negb (r =? 0) then let* str' := wr str' 0 0 in Ret (r, str') else Ret (0, str')) = Ret (r, new) /\
      length new = length str /\ (r = 0 -> exists txt, text_in str new txt) /\ (r <> 0 -> new = str \/ exists rest, new = 0 :: rest)).
  { intros m (r & new & -> & Ln & T). cbn [bind]. destruct (Z.eqb_spec r 0) as [R|R]; cbn [negb].
    - subst r. exists 0, new. split; [reflexivity|]. split; [exact Ln|]. split; [exact T|congruence].
    - destruct new as [|n0 new]; [cbn in Ln; lia|]. cbn [wr length Nat.ltb Nat.leb upd bind]. exists r, (0 :: new).
      split; [reflexivity|]. split; [exact Ln|]. split; [contradiction|]. intros _. right. eauto. }
  assert (TX : forall ok, exists r new, text_get_string ok val str = Ret (r, new) /\ length new = length str /\ (r = 0 -> exists txt, text_in str new txt)).
  { intros ok. destruct (text_cases ok val str) as (C1 & C2 & C3 & C4).
    destruct (list_eq_dec Z.eq_dec val []) as [V|V]; [rewrite C1 by (left; subst; reflexivity); eexists _, str; split; [reflexivity|split; [reflexivity|discriminate]]|].
    destruct (Nat.leb_spec (length str) (length val)) as [L|L]; [rewrite C2 by assumption; eexists _, str; split; [reflexivity|split; [reflexivity|discriminate]]|].
    destruct (forallb ok val) eqn:F.
    - destruct (C3 V L eq_refl) as (new & Ec & T). exists 0, new. split; [exact Ec|]. split; [|eauto]. destruct T as (T1 & ->).
      rewrite app_length. cbn [length]. rewrite skipn_length. lia.
    - destruct (C4 V L eq_refl) as (new & Ec & Ln). exists 1, new. split; [exact Ec|]. split; [exact Ln|discriminate]. }
  unfold get_string. apply G. clear G. destruct fmt.
  - apply TX.
  - apply TX.
  - destruct (Z.eqb_spec tag 0x50); [apply TX|]. destruct (Z.eqb_spec tag 0x9F12) as [T12|T12]; [|apply TX].
    specialize (H12 T12). assert (Hl : (length val < length str)%nat).
    { unfold too in TOO. destruct (Nat.eqb_spec max 0); [contradiction|]. cbn [negb andb] in *. lia. }
    rewrite put_Ret by lia. cbn [bind firstn app Nat.add]. 
    rewrite wr_Ret by (rewrite app_length, skipn_length; lia). cbn [bind].
    exists 0. eexists. split; [reflexivity|]. split; [rewrite upd_length, app_length, skipn_length; lia|]. intros _. exists val.
    split; [exact Hl|]. destruct (skipn_S str (length val) Hl) as (x & ->). rewrite upd_app by reflexivity. reflexivity.
  - destruct (cn_cases val str B) as (C1 & C2 & C3 & C4).
    destruct (list_eq_dec Z.eq_dec val []) as [V|V]; [rewrite C1 by (left; subst; reflexivity); eexists _, str; split; [reflexivity|split; [reflexivity|discriminate]]|].
    destruct (Nat.leb_spec (length str) (2 * length val)) as [L|L]; [rewrite C2 by assumption; eexists _, str; split; [reflexivity|split; [reflexivity|discriminate]]|].
    destruct (Forall_dec (fun d => 0 <= d <= 9)) with (l := before_pad (nibbles val)) as [F|F].
    { intros d. destruct (Z_le_dec 0 d), (Z_le_dec d 9); [left; lia|right; lia..]. }
    + destruct (C3 V L F) as (new & Ec & T). exists 0, new. split; [exact Ec|]. split; [|eauto]. destruct T as (T1 & ->).
      rewrite app_length. cbn [length]. rewrite skipn_length. lia.
    + destruct (C4 V L F) as (new & Ec & Ln). exists 1, new. split; [exact Ec|]. split; [exact Ln|discriminate].
  - specialize (HN eq_refl). unfold format_n_get_string. destruct (format_n_to_uint val) as (r & v) eqn:EF.
    destruct (Z.eqb_spec r 0) as [R|R]; cbn [negb].
    2:{ exists r, str. split; [reflexivity|]. split; [reflexivity|contradiction]. }
    assert (RV : exists w, v = Some w /\ 0 <= w < 4294967296 /\ forall ds, decimal w ds -> (length ds <= 2 * length val)%nat).
    { destruct (list_eq_dec Z.eq_dec val []) as [V|V]; [subst val; cbn in EF; injection EF as <- <-; lia|].
      destruct (bcd_dec val) as [D|D].
      - rewrite (n_to_uint_bcd val D V) in EF. injection EF as _ <-. eexists; split; [reflexivity|]. split; [apply u32_range|].
        intros ds Dd. pose proof (dec_range val D) as DR. assert (u32 (decval val) <= decval val) by (unfold u32; apply Z.mod_le; lia).
        pose proof (u32_range (decval val)) as UR. set (w := u32 (decval val)) in *.
        destruct (Z.ltb_spec 0 w) as [P|P].
        + pose proof (decimal_lead w ds Dd P) as (Lo & _). destruct (Nat.leb_spec (length ds) (2 * length val)) as [X|X]; [exact X|exfalso].
          assert (10 ^ (2 * Zlen val) <= 10 ^ (Zlen ds - 1)) by (apply Z.pow_le_mono_r; unfold Zlen; lia).
          rewrite Z.pow_mul_r in * by (unfold Zlen; lia). change (10 ^ 2) with 100 in *. lia.
        + assert (W0 : w = 0) by lia. rewrite W0 in Dd.
          assert (Z0 : decimal 0 [0]) by (unfold decimal; split; [repeat constructor; lia|split; [reflexivity|split; [discriminate|reflexivity]]]).
          rewrite (decimal_unique 0 ds [0] Dd Z0). destruct val; [contradiction|]. cbn [length]. lia.
      - pose proof (n_to_uint_err val B V D) as X. rewrite EF in X. cbn [fst] in X. lia. }
    destruct RV as (w & -> & RW & RL).
    assert (NN : exists ds new, decimal w ds /\ uint_to_str w str = Ret (0, new) /\ text_in str new (chars ds)).
    { destruct HN as [HN|(M0 & ME)]; [apply number_11; assumption|].
      unfold too in TOO. destruct (Nat.eqb_spec max 0); [contradiction|]. cbn [negb andb] in *.
      apply Nat.even_spec in ME as (h & ->). assert (Eh : ((2 * h + 1) / 2 = h)%nat) by (rewrite Nat.mul_comm, Nat.add_comm, Nat.div_add by lia; reflexivity).
      rewrite Eh in TOO. destruct (number_exact w str RW) as (ds & D & _ & _ & C & _). specialize (RL ds D).
      destruct (C ltac:(lia) ltac:(lia)) as (new & Ec & T). exists ds, new. auto. }
    destruct NN as (ds & new & _ & Ec & T).
    exists 0, new. split; [exact Ec|]. split; [|eauto]. destruct T as (T1 & ->).
    rewrite app_length. cbn [length]. rewrite skipn_length. lia.
Qed.

Lemma text_exact ok val str new : str <> [] -> text_get_string ok val str = Ret (0, new) -> text_in str new val.
Proof.
  intros Hs E. destruct (text_cases ok val str) as (C1 & C2 & C3 & C4).
  destruct (list_eq_dec Z.eq_dec val []) as [V|V]; [rewrite C1 in E by (left; subst; reflexivity); discriminate|].
  destruct (Nat.leb_spec (length str) (length val)) as [L|L]; [rewrite C2 in E by assumption; discriminate|].
  destruct (forallb ok val) eqn:F.
  - destruct (C3 V L eq_refl) as (n & En & T). rewrite En in E. injection E as <-. exact T.
  - destruct (C4 V L eq_refl) as (n & En & T). rewrite En in E. discriminate.
Qed.
Lemma value_exact max tag val str new : str <> [] ->
  (tlv_value_get_string FormatA max tag val str = Ret (0, new) \/ tlv_value_get_string FormatAN max tag val str = Ret (0, new) \/
   tlv_value_get_string FormatANS max tag val str = Ret (0, new)) ->
  text_in str new val.
Proof.
  intros Hs H.
  assert (G : forall fmt m, tlv_value_get_string fmt max tag val str = Ret (0, new) ->
    get_string fmt tag val str = (let* (r, str') := m in if negb (r =? 0) then let* str' := wr str' 0 0 in Ret (r, str') else Ret (0, str')) ->
    m = Ret (0, new)).
  { intros fmt m E Em. unfold tlv_value_get_string in E.
    destruct (Nat.eqb_spec (length str) 0) as [E0|E0]; [destruct str; [contradiction|discriminate]|].
    destruct (_ && _)%bool in E; [destruct fmt; discriminate|]. destruct (_ && _)%bool in E; [discriminate|].
    rewrite Em in E. destruct m as [(r & n)| |]; try discriminate. cbn [bind] in E.
    destruct (Z.eqb_spec r 0); cbn [negb] in E; [subst; congruence|].
    destruct (wr n 0 0); cbn [bind] in E; try discriminate. congruence. }
  destruct H as [H|[H|H]].
  - apply (text_exact is_alpha); [exact Hs|]. exact (G FormatA _ H eq_refl).
  - apply (text_exact (fun c => is_num c || is_alpha c)%bool); [exact Hs|]. exact (G FormatAN _ H eq_refl).
  - destruct (Z.eqb_spec tag 0x50) as [T|T].
    + apply (text_exact (fun c => is_num c || is_alpha c || (c =? 0x20))%bool); [exact Hs|]. apply (G FormatANS _ H). subst tag. reflexivity.
    + destruct (Z.eqb_spec tag 0x9F12) as [T2|T2].
      * assert (E : (let* s1 := put str 0 val in let* s2 := wr s1 (length val) 0 in Ret (0, s2)) = Ret (0, new)) by (apply (G FormatANS _ H); subst tag; reflexivity).
        destruct (put str 0 val) as [s1| |] eqn:Ep; cbn [bind] in E; try discriminate.
        destruct (wr s1 (length val) 0) as [s2| |] eqn:Ew; cbn [bind] in E; try discriminate. injection E as <-.
        apply put_inv in Ep as (Lp & ->). apply wr_inv in Ew as (Lw & ->). cbn [firstn app Nat.add] in *. rewrite app_length, skipn_length in Lw.
        assert (Hl : (length val < length str)%nat) by lia.
        split; [exact Hl|]. destruct (skipn_S str (length val) Hl) as (x & ->). rewrite upd_app by reflexivity. reflexivity.
      * apply (text_exact (fun c => (0x20 <=? c) && (c <=? 0x7F))%bool); [exact Hs|]. apply (G FormatANS _ H).
        unfold get_string. destruct (Z.eqb_spec tag 0x50); [contradiction|]. destruct (Z.eqb_spec tag 0x9F12); [contradiction|]. reflexivity.
Qed.
