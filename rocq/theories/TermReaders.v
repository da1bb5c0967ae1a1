(** Proofs for emv-tool: the list of readers. *)
From Coq Require Import String.
From Verif Require Import Base BaseLemmas BerSpec TlvListModel TlvModel TlvSpec StrModel StrSpec CapduModel FlagsSpec FlagsModel FlagsTexts PcscModel PcscSpec PcscProofs PcscProps PrintModel AppModel TermModel TermSpec.
Open Scope string_scope.
Open Scope Z_scope.
Open Scope list_scope.
Notation length := List.length.

Lemma commas_text l : commas l = comma_text l.
Proof. induction l as [|s [|t l] IH]; [reflexivity|reflexivity|]. change (commas (s :: t :: l)) with (s ++ lit ", " ++ commas (t :: l)). rewrite IH. reflexivity. Qed.
Lemma hex4_text v : 0 <= v < 65536 -> p_04x v = hex4 v.
Proof.
  intros V. unfold p_04x, hex4. assert (D : forall d, 0 <= d < 16 -> (if d <? 10 then 48 + d else 87 + d) = lower_hex d).
  { intros d Hd. assert (Q : forallb (fun d => (if d <? 10 then 48 + d else 87 + d) =? lower_hex d) (map Z.of_nat (seq 0 16)) = true) by (vm_compute; reflexivity).
    rewrite forallb_forall in Q. apply Z.eqb_eq, Q. replace d with (Z.of_nat (Z.to_nat d)) by lia. apply in_map, in_seq. lia. }
  assert (M : forall x, 0 <= x mod 16 < 16) by (intros x; apply Z.mod_pos_bound; lia).
  cbn [map]. cbv zeta. change (16 ^ 3) with 4096. change (16 ^ 2) with 256. change (16 ^ 1) with 16. change (16 ^ 0) with 1. rewrite Z.div_1_r, !D by apply M. reflexivity.
Qed.

Section Reader.
Context (f : features) (es : list (Z * list Z)).
Hypothesis OK : feat_ok f.
Hypothesis G : given (f_props f) (f_props_len f) (enc_props es).
Hypothesis SH : Forall (fun e => Zlen (snd e) < 256) es.

Lemma enc_split a (e : Z * list Z) b : enc_props (a ++ e :: b) = enc_props a ++ (fst e :: Zlen (snd e) :: snd e) ++ enc_props b.
Proof. unfold enc_props. rewrite flat_map_app. reflexivity. Qed.
Lemma find_first p : (exists a v b, es = a ++ (p, v) :: b /\ ~ In p (map fst a) /\ find (fun e => fst e =? p) es = Some (p, v)) \/
  (~ In p (map fst es) /\ find (fun e => fst e =? p) es = None).
Proof.
  clear OK G SH. induction es as [|[q v] l IH]; [right; split; [intros []|reflexivity]|]. cbn [find fst]. destruct (Z.eqb_spec q p) as [->|N].
  - left. exists [], v, l. split; [reflexivity|]. split; [intros []|reflexivity].
  - destruct IH as [(a & w & b & -> & Na & F)|[Nl F]].
    + left. exists ((q, v) :: a), w, b. split; [reflexivity|]. split; [|exact F]. cbn [map fst In]. intros [Q|Q]; [congruence|exact (Na Q)].
    + right. split; [|exact F]. cbn [map fst In]. intros [Q|Q]; [congruence|exact (Nl Q)].
Qed.
(** One look up, with a buffer of [n] octets. *)
Lemma property p (value : list Z) : (2 <= length value)%nat \/ (p <> 1 /\ p <> 4 /\ p <> 5) ->
  get_property f p value (Zlen value) = Ret (match known f es p with
    | None => (1, value, 0)
    | Some v => if Zlen v <=? Zlen value then (0, v ++ skipn (length v) value, Zlen v) else (-3, value, 0)
    end).
Proof.
  intros L2. unfold known. destruct (find_first p) as [(a & v & b & E & Na & F)|[N F]]; rewrite F.
  - cbn [snd]. rewrite E in G, SH. rewrite enc_split in G. apply Forall_app in SH. destruct SH as [Sa Sb]. inversion Sb as [|? ? Sv _]; subst. cbn [fst snd] in *.
    apply (get_property_found f p value (Zlen value) a v (enc_props b) OK G Na Sa Sv). lia.
  - pose proof OK as (_ & _ & Lp & Ld & _). assert (G' : given (f_props f) (f_props_len f) (enc_props es ++ [])) by (rewrite app_nil_r; exact G).
    rewrite (C56_property_absent_partial f p value (Zlen value) es [] OK G' N SH ltac:(reflexivity) ltac:(lia)). cbv zeta. f_equal.
    assert (K : (2 <= length value)%nat -> (Zlen value <? 2) = false) by (intros Q; apply Z.ltb_ge; unfold Zlen; lia).
    assert (K2 : (2 <= length value)%nat -> (2 <=? Zlen value) = true) by (intros Q; apply Z.leb_le; unfold Zlen; lia).
    assert (W : forall w : list Z, length w = 2%nat -> (2 <= length value)%nat ->
      (if Zlen w <=? Zlen value then (0, w ++ skipn (length w) value, Zlen w) else (-3, value, 0)) = (0, w ++ skipn 2 value, 2)).
    { intros w Lw Q. unfold Zlen at 1 3. rewrite Lw. change (Z.of_nat 2) with 2. rewrite (K2 Q). reflexivity. }
    assert (L1 : length (firstn 2 (f_pin f)) = 2%nat) by (rewrite firstn_length; lia).
    assert (L3 : length (firstn 2 (f_disp f)) = 2%nat) by (rewrite firstn_length; lia).
    assert (L4 : length (skipn 2 (f_disp f)) = 2%nat) by (rewrite skipn_length; lia).
    destruct (Z.eqb_spec p 1) as [->|]; [|destruct (Z.eqb_spec p 4) as [->|]; [|destruct (Z.eqb_spec p 5) as [->|]]];
      change (1 =? 4) with false; change (1 =? 5) with false; change (4 =? 5) with false; rewrite ?Bool.andb_false_r, ?Bool.andb_true_r; cbn [andb].
    + destruct L2 as [L2|[Q _]]; [|congruence]. destruct (f_pin_len f =? 0); cbn [negb]; [reflexivity|]. rewrite (K L2), (W _ L1 L2). reflexivity.
    + destruct L2 as [L2|(_ & Q & _)]; [|congruence]. destruct (f_disp_len f =? 0); cbn [negb]; [reflexivity|]. rewrite (K L2), (W _ L3 L2). reflexivity.
    + destruct L2 as [L2|(_ & _ & Q)]; [|congruence]. destruct (f_disp_len f =? 0); cbn [negb]; [reflexivity|]. rewrite (K L2), (W _ L4 L2). reflexivity.
    + reflexivity.
Qed.
Lemma known_short p v : known f es p = Some v -> Zlen v < 256.
Proof.
  unfold known. destruct (find_first p) as [(a & w & b & E & Na & F)|[N F]]; rewrite F.
  - cbn [snd]. intros Q. injection Q as <-. rewrite E in SH. apply Forall_app in SH. destruct SH as [_ Sb]. inversion Sb; assumption.
  - pose proof OK as (_ & _ & Lp & Ld & _). unfold Zlen. repeat match goal with |- (if ?c then _ else _) = _ -> _ => destruct c end; intros Q; try discriminate;
    apply (f_equal (fun o => match o with Some v => length v | None => O end)) in Q; cbv beta iota in Q; rewrite ?firstn_length, ?skipn_length in Q; lia.
Qed.
Lemma any_known (junk : list Z) l : length junk = 256%nat -> any_property f l junk = Ret (existsb (fun p => match known f es p with Some _ => true | None => false end) l).
Proof.
  intros J. induction l as [|p l IH]; [reflexivity|]. cbn [any_property existsb]. rewrite (property p junk) by (left; lia). cbn [bind].
  destruct (known f es p) as [v|] eqn:E.
  - pose proof (known_short p v E). destruct (Z.leb_spec (Zlen v) (Zlen junk)); [reflexivity|unfold Zlen in *; lia].
  - cbn [orb]. exact IH.
Qed.
Lemma le_amount v : (length v = 2)%nat -> le2 v = be (rev v).
Proof. destruct v as [|a [|b [|? ?]]]; intros L; try discriminate L. change (a + 256 * b = (0 * 256 + b) * 256 + a). lia. Qed.
Lemma number_of p n (junk : list Z) : (n = 1 \/ n = 2)%nat -> (n = 2%nat \/ (p <> 1 /\ p <> 4 /\ p <> 5)) -> length junk = 256%nat ->
  number_property f p n junk = Ret (amount_of n (known f es p), in_octets n (known f es p)).
Proof.
  intros N P J. unfold number_property. assert (L : length (firstn n junk) = n) by (rewrite firstn_length; lia).
  assert (Z1 : Z.of_nat n = Zlen (firstn n junk)) by (unfold Zlen; rewrite L; reflexivity). rewrite Z1 at 1.
  rewrite (property p (firstn n junk)) by (destruct P; [left; lia|right; assumption]). cbn [bind]. unfold amount_of, in_octets.
  destruct (known f es p) as [v|]; [|cbn; reflexivity]. rewrite <- Z1. unfold Zlen at 1. destruct (Z.leb_spec (Z.of_nat (length v)) (Z.of_nat n)) as [B|B].
  - change (0 =? 0) with true. cbn [negb orb]. unfold Zlen. destruct (Nat.eqb_spec (length v) n) as [E|E].
    + rewrite E, Z.eqb_refl. cbn [negb]. f_equal. f_equal.
      * destruct N as [->| ->]; cbn [Nat.eqb]; [destruct v as [|a [|? ?]]; try discriminate E; reflexivity|]. 
        assert (T : v ++ skipn 2 (firstn 2 junk) = v) by (rewrite skipn_all2 by lia; apply app_nil_r). rewrite T. apply le_amount. exact E.
      * destruct N as [->| ->]; reflexivity.
    + destruct (Z.eqb_spec (Z.of_nat (length v)) (Z.of_nat n)); [lia|]. cbn [negb]. f_equal. f_equal.
      destruct (Z.eqb_spec (Z.of_nat (length v)) 0), (Nat.leb_spec 1 (length v)), (Nat.leb_spec (length v) n); try lia; reflexivity.
  - destruct (Nat.eqb_spec (length v) n), (Nat.leb_spec 1 (length v)), (Nat.leb_spec (length v) n); try lia; reflexivity.
Qed.

Hypothesis BE : Forall (fun e => bytes (snd e)) es.
Hypothesis BF : bytes (f_pin f) /\ bytes (f_disp f).
Lemma known_bytes p v : known f es p = Some v -> bytes v.
Proof.
  unfold known. destruct (find_first p) as [(a & w & b & E & Na & F)|[N F]]; rewrite F.
  - cbn [snd]. intros Q. injection Q as <-. rewrite E in BE. apply Forall_app in BE. destruct BE as [_ Sb]. inversion Sb; assumption.
  - destruct BF. repeat match goal with |- (if ?c then _ else _) = _ -> _ => destruct c end; intros Q; try discriminate;
    apply (f_equal (fun o => match o with Some v => v | None => [] end)) in Q; cbv beta iota in Q; rewrite <- Q; auto using bytes_firstn, bytes_skipn.
Qed.
Lemma amount_range p n : (n = 1 \/ n = 2)%nat -> 0 <= amount_of n (known f es p) < 65536.
Proof.
  intros N. unfold amount_of. destruct (known f es p) as [v|] eqn:E; [|lia]. pose proof (known_bytes p v E) as B. destruct (Nat.eqb_spec (length v) n) as [L|]; [|lia].
  destruct N as [->| ->].
  - destruct v as [|a [|? ?]]; try discriminate L. inversion B as [|? ? Ba _]; subst. change (0 <= 0 * 256 + a < 65536). unfold is_byte in *. lia.
  - destruct v as [|a [|b [|? ?]]]; try discriminate L. inversion B as [|? ? Ba Bb]; subst. inversion Bb as [|? ? Bb' _]; subst. change (0 <= (0 * 256 + b) * 256 + a < 65536). unfold is_byte in *. lia.
Qed.
Lemma properties_spec (junk : list Z) : length junk = 256%nat -> properties_line f junk =
  Ret (properties_text f es).
Proof.
  intros J. unfold properties_line, properties_text. rewrite (any_known junk _ J). cbn [bind]. destruct (existsb _ _); cbn [negb]; [|reflexivity].
  assert (L2 : length (firstn 2 junk) = 2%nat) by (rewrite firstn_length; lia).
  assert (E1 : get_property f 1 (firstn 2 junk) 2 = get_property f 1 (firstn 2 junk) (Zlen (firstn 2 junk))) by (unfold Zlen; rewrite L2; reflexivity).
  rewrite E1, (property 1 (firstn 2 junk)) by (left; lia). cbn [bind].
  rewrite !(number_of _ 2 junk), !(number_of _ 1 junk) by (auto; right; repeat split; lia). cbn [bind].
  pose proof (amount_range 0x04 2 (or_intror eq_refl)) as R4. pose proof (amount_range 0x05 2 (or_intror eq_refl)) as R5.
  pose proof (amount_range 0x06 1 (or_introl eq_refl)) as R6. pose proof (amount_range 0x07 1 (or_introl eq_refl)) as R7.
  pose proof (amount_range 0x0B 2 (or_intror eq_refl)) as RB. pose proof (amount_range 0x0C 2 (or_intror eq_refl)) as RC.
  destruct (known f es 1) as [v|] eqn:K1.
  all: assert (X : forall a b c d a' b' c' d' : list (list Z), a = a' -> b = b' -> c = c' -> d = d' ->
    Ret ([9] ++ lit "Properties: " ++ commas (a ++ b ++ c ++ d) ++ newline) = Ret ([9] ++ lit "Properties: " ++ comma_text (a' ++ b' ++ c' ++ d') ++ [10]))
    by (intros a b c d a' b' c' d' -> -> -> ->; rewrite commas_text; reflexivity).
  all: set (c4 := amount_of 2 (known f es 4)) in *; set (c5 := amount_of 2 (known f es 5)) in *; set (c6 := amount_of 1 (known f es 6)) in *; set (c7 := amount_of 1 (known f es 7)) in *;
    set (cB := amount_of 2 (known f es 11)) in *; set (cC := amount_of 2 (known f es 12)) in *.
  - unfold Zlen at 2. rewrite L2. change (Z.of_nat 2) with 2. pose proof (known_bytes 1 v K1) as Bv.
    destruct (Z.leb_spec (Zlen v) 2) as [Lv|Lv].
    + apply X.
      * change (0 =? 0) with true. cbn [andb]. destruct v as [|a [|b [|? ?]]]; try (unfold Zlen in Lv; cbn [length] in Lv; lia); try reflexivity.
        inversion Bv as [|? ? Ba Bb]; subst. inversion Bb as [|? ? Bb' _]; subst. unfold is_byte in *.
        change (Zlen [a; b] =? 2) with true. cbn [app nth layout_text]. rewrite !p_dec_text by lia. destruct (a =? 0), (b =? 0); reflexivity.
      * unfold display_text. cbv zeta. fold c4 c5. destruct (Z.eqb_spec c4 0), (Z.eqb_spec c5 0), (Z.ltb_spec 0 c4), (Z.ltb_spec 0 c5); try lia; cbn [negb andb orb]; try (rewrite !p_dec_text by lia; reflexivity);
          destruct (in_octets 2 (known f es 4)), (in_octets 2 (known f es 5)); reflexivity.
      * unfold pin_text. destruct (Z.eqb_spec c6 0), (Z.eqb_spec c7 0), (Z.ltb_spec 0 c6), (Z.ltb_spec 0 c7); try lia; cbn [negb orb]; rewrite ?p_dec_text by lia; reflexivity.
      * unfold usb_text. destruct (Z.eqb_spec cB 0), (Z.eqb_spec cC 0), (Z.ltb_spec 0 cB), (Z.ltb_spec 0 cC); try lia; cbn [negb andb]; rewrite ?hex4_text by lia; reflexivity.
    + apply X.
      * cbn [Z.eqb andb]. destruct v as [|a [|b [|c v]]]; try (unfold Zlen in Lv; cbn [length] in Lv; lia); reflexivity.
      * unfold display_text. cbv zeta. fold c4 c5. destruct (Z.eqb_spec c4 0), (Z.eqb_spec c5 0), (Z.ltb_spec 0 c4), (Z.ltb_spec 0 c5); try lia; cbn [negb andb orb]; try (rewrite !p_dec_text by lia; reflexivity);
          destruct (in_octets 2 (known f es 4)), (in_octets 2 (known f es 5)); reflexivity.
      * unfold pin_text. destruct (Z.eqb_spec c6 0), (Z.eqb_spec c7 0), (Z.ltb_spec 0 c6), (Z.ltb_spec 0 c7); try lia; cbn [negb orb]; rewrite ?p_dec_text by lia; reflexivity.
      * unfold usb_text. destruct (Z.eqb_spec cB 0), (Z.eqb_spec cC 0), (Z.ltb_spec 0 cB), (Z.ltb_spec 0 cC); try lia; cbn [negb andb]; rewrite ?hex4_text by lia; reflexivity.
  - apply X; [reflexivity|..].
    + unfold display_text. cbv zeta. fold c4 c5. destruct (Z.eqb_spec c4 0), (Z.eqb_spec c5 0), (Z.ltb_spec 0 c4), (Z.ltb_spec 0 c5); try lia; cbn [negb andb orb]; try (rewrite !p_dec_text by lia; reflexivity);
        destruct (in_octets 2 (known f es 4)), (in_octets 2 (known f es 5)); reflexivity.
    + unfold pin_text. destruct (Z.eqb_spec c6 0), (Z.eqb_spec c7 0), (Z.ltb_spec 0 c6), (Z.ltb_spec 0 c7); try lia; cbn [negb orb]; rewrite ?p_dec_text by lia; reflexivity.
    + unfold usb_text. destruct (Z.eqb_spec cB 0), (Z.eqb_spec cC 0), (Z.ltb_spec 0 cB), (Z.ltb_spec 0 cC); try lia; cbn [negb andb]; rewrite ?hex4_text by lia; reflexivity.
Qed.
End Reader.

Lemma bit_clear s k : 0 <= k -> negb (Z.land s (2 ^ k) =? 0) = Z.testbit s k.
Proof.
  intros K. destruct (Z.testbit s k) eqn:E.
  - apply Bool.negb_true_iff, Z.eqb_neq. intros Q. apply (f_equal (fun v => Z.testbit v k)) in Q. rewrite Z.land_spec, E, Z.pow2_bits_true, Z.bits_0 in Q by lia. discriminate.
  - apply Bool.negb_false_iff, Z.eqb_eq. apply Z.bits_inj'. intros n Hn. rewrite Z.land_spec, Z.bits_0. destruct (Z.eq_dec n k) as [->|N]; [rewrite E; reflexivity|].
    rewrite Z.pow2_bits_false by lia. apply Bool.andb_false_r.
Qed.
Lemma state_spec st : match st with Some s => match reader_state_string s with Some t => t | None => lit "Unknown" end | None => lit "Unknown" end = state_text st.
Proof.
  destruct st as [s|]; [|reflexivity]. unfold reader_state_string, state_text.
  rewrite <- (bit_clear s 3), <- (bit_clear s 4), <- (bit_clear s 5), <- (bit_clear s 9), <- (bit_clear s 10) by lia.
  change (2 ^ 3) with 0x0008. change (2 ^ 4) with 0x0010. change (2 ^ 5) with 0x0020. change (2 ^ 9) with 0x0200. change (2 ^ 10) with 0x0400.
  repeat match goal with |- context [if ?b then _ else _] => destruct b end; reflexivity.
Qed.
Lemma features_spec f es : feat_ok f -> given (f_buf f) (f_buf_len f) (enc_features es) -> Forall fentry_ok es ->
  features_line f = Ret (features_text (map fe_tag es)).
Proof.
  intros OK G F. unfold features_line, feature_list. cbn [having].
  assert (H : forall x, has_feature f x = Ret (if in_dec Z.eq_dec x (map fe_tag es) then true else false)).
  { intros x. destruct (C81_has_feature_exact f es x OK G F) as (b & -> & E). f_equal. destruct (in_dec Z.eq_dec x (map fe_tag es)) as [I0|N].
    - apply E. apply in_map_iff in I0 as (e & <- & Ie). eauto.
    - apply Bool.not_true_is_false. intros Q. apply N. apply E in Q as (e & Ie & <-). now apply in_map. }
  rewrite !H. cbn [bind]. f_equal. unfold features_text. cbv zeta.
  destruct (in_dec Z.eq_dec 6 (map fe_tag es)), (in_dec Z.eq_dec 7 (map fe_tag es)), (in_dec Z.eq_dec 8 (map fe_tag es)), (in_dec Z.eq_dec 9 (map fe_tag es)); reflexivity.
Qed.
