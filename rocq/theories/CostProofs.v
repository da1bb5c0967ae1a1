(** Lemmas about the cost of decoding and parsing. *)
From Verif Require Import Base BaseLemmas BerModel BerSpec BerProofs TlvListModel TlvModel TlvSpec TlvProofs CostModel.

(** ** The same results *)
Lemma decode_same : forall fuel buf,
  ber_decode_f fuel buf = (let* (r, t, _) := decode_c fuel buf in Ret (r, t)) /\
  (forall off l, ber_indef_f fuel buf off l = (let* (e, l', _) := indef_c fuel buf off l in Ret (e, l'))).
Proof.
  induction fuel as [|f IH]; intros buf; [split; reflexivity|]. split.
  - cbn [ber_decode_f decode_c]. destruct (Nat.eqb (length buf) 0); [reflexivity|]. destruct (Nat.ltb (length buf) 2); [reflexivity|].
    destruct (ber_tag_decode buf) as [[r tag]| |]; cbn [bind]; [|reflexivity|reflexivity]. destruct (r <=? 0); [reflexivity|].
    destruct (Nat.leb (length buf) (Z.to_nat r)); [reflexivity|]. destruct (rd buf 0) as [b0| |]; cbn [bind]; [|reflexivity|reflexivity].
    destruct (rd buf (Z.to_nat r)) as [bl| |]; cbn [bind]; [|reflexivity|reflexivity].
    destruct (bl =? 128).
    + destruct (Z.land b0 32 =? 0); [reflexivity|]. rewrite (proj2 (IH buf)). destruct (indef_c f buf (S (Z.to_nat r)) 0) as [[[e l] c]| |]; cbn [bind]; [|reflexivity|reflexivity].
      destruct (e <? 0); [reflexivity|]. destruct (Zlen buf <? Z.of_nat (S (Z.to_nat r)) + l); [reflexivity|]. destruct (sub buf (S (Z.to_nat r)) (Z.to_nat l)); reflexivity.
    + destruct (negb (Z.land bl 128 =? 0)).
      * destruct (Nat.ltb 4 (Z.to_nat (Z.land bl 127))); [reflexivity|]. destruct (Nat.ltb (length buf) (S (Z.to_nat r) + Z.to_nat (Z.land bl 127))); [reflexivity|].
        destruct (ber_len_loop (Z.to_nat (Z.land bl 127)) buf (S (Z.to_nat r)) 0) as [l| |]; cbn [bind]; [|reflexivity|reflexivity].
        destruct (Zlen buf <? Z.of_nat (S (Z.to_nat r) + Z.to_nat (Z.land bl 127)) + l); [reflexivity|]. destruct (sub buf (S (Z.to_nat r) + Z.to_nat (Z.land bl 127)) (Z.to_nat l)); reflexivity.
      * destruct (Zlen buf <? Z.of_nat (S (Z.to_nat r)) + bl); [reflexivity|]. destruct (sub buf (S (Z.to_nat r)) (Z.to_nat bl)); reflexivity.
  - intros off l. cbn [ber_indef_f indef_c]. destruct (sub buf (off + Z.to_nat l) (length buf - (off + Z.to_nat l))) as [rest| |]; cbn [bind]; [|reflexivity|reflexivity].
    rewrite (proj1 (IH rest)). destruct (decode_c f rest) as [[[r t] c]| |]; cbn [bind]; [|reflexivity|reflexivity].
    destruct (r <? 0); [reflexivity|]. destruct (r =? 0); [reflexivity|]. destruct t as [t|]; [|reflexivity]. destruct (b_tag t =? 0); [reflexivity|].
    rewrite (proj2 (IH buf)). destruct (indef_c f buf off (u32 (l + r))) as [[[e l'] c2]| |]; reflexivity.
Qed.
Lemma itr_same itr : ber_itr_next itr = (let* (r, t, i, _) := itr_next_c itr in Ret (r, t, i)).
Proof.
  unfold ber_itr_next, itr_next_c, ber_decode. rewrite (proj1 (decode_same _ _)). destruct (decode_c (S (length itr)) itr) as [[[r t] c]| |]; cbn [bind]; [|reflexivity|reflexivity].
  destruct (0 <? r); [|reflexivity]. destruct (sub itr (Z.to_nat r) (length itr - Z.to_nat r)); reflexivity.
Qed.
Lemma parse_loop_same : forall fuel itr l, tlv_parse_f fuel itr l = (let* (e, l', _) := parse_loop_c fuel itr l in Ret (e, l')).
Proof.
  induction fuel as [|f IH]; intros itr l; [reflexivity|]. cbn [tlv_parse_f parse_loop_c]. rewrite itr_same. destruct (itr_next_c itr) as [[[[r t] i] c]| |]; cbn [bind]; [|reflexivity|reflexivity].
  destruct (r <=? 0); [reflexivity|]. destruct t as [t|]; [|reflexivity]. destruct (ber_is_constructed t).
  - rewrite IH. destruct (parse_loop_c f (b_val t) l) as [[[e l1] c1]| |]; cbn [bind]; [|reflexivity|reflexivity]. destruct (e =? 0); [|reflexivity].
    rewrite IH. destruct (parse_loop_c f i l1) as [[[e2 l2] c2]| |]; reflexivity.
  - rewrite IH. destruct (parse_loop_c f i (l ++ [mkField (b_tag t) (b_len t) (b_val t) 0])) as [[[e2 l2] c2]| |]; reflexivity.
Qed.

(** ** Bounds *)
Lemma Ret_inj {A} (a b : A) : Ret a = Ret b -> a = b. Proof. congruence. Qed.
Lemma Some_inj {A} (a b : A) : Some a = Some b -> a = b. Proof. congruence. Qed.
Lemma tag_zero buf r t b0 : bytes buf -> ber_tag_decode buf = Ret (r, t) -> 0 < r -> rd buf 0 = Ret b0 -> t = 0 -> Z.land b0 0x20 = 0.
Proof.
  intros B E P R Z. destruct (tag_decode_sound buf r t B E P) as (id & rest & -> & Hid & Ht & _). pose proof (identifier_bytes id Hid) as Bi. pose proof (identifier_length id Hid) as Li.
  destruct id as [|x id]; [cbn in Li; lia|]. unfold rd in R. cbn in R. injection R as ->. rewrite be_cons in Ht. inversion Bi as [|? ? Hx Bi']; subst.
  pose proof (be_range id Bi') as Q. assert (0 < 256 ^ Zlen id) by (apply Z.pow_pos_nonneg; unfold Zlen; lia). unfold is_byte in Hx. assert (b0 = 0) by nia. subst. reflexivity.
Qed.
Definition decode_bound (n : Z) (r : Z) (t : option ber_tlv) (c : cost) : Prop :=
  1 <= fst c /\ 1 <= snd c /\ 2 * snd c <= n + 2 /\ fst c <= n + 1 /\ (forall o, t = Some o -> fst c <= r /\ (b_tag o = 0 -> fst c = 1)).
Lemma leaf_bound n r t : 0 <= n -> (t <> None -> 1 <= r) -> decode_bound n r t leaf_cost.
Proof. intros N H. unfold decode_bound, leaf_cost. cbn [fst snd]. repeat split; try lia. apply H. subst; discriminate. Qed.

Lemma decode_cost : forall fuel buf, bytes buf -> small buf ->
  (forall r t c, decode_c fuel buf = Ret (r, t, c) -> (length buf < fuel)%nat -> decode_bound (Zlen buf) r t c) /\
  (forall off l e l' c, indef_c fuel buf off l = Ret (e, l', c) -> 0 <= l -> (off + Z.to_nat l <= length buf)%nat -> (length buf - (off + Z.to_nat l) + 1 < fuel)%nat ->
     1 <= fst c /\ 1 <= snd c /\ 2 * snd c <= Zlen buf - Z.of_nat off + 2 /\ fst c <= Zlen buf - Z.of_nat off - l + 1 /\ (0 <= e -> fst c <= l' - l + 1)).
Proof.
  induction fuel as [|f IH]; intros buf Hb Hs; [split; intros; lia|]. split.
  - intros r0 t0 c0 E Hf. assert (N : 0 <= Zlen buf) by (unfold Zlen; lia). cbn [decode_c] in E.
    destruct (Nat.eqb_spec (length buf) 0); [injection E as <- <- <-; apply leaf_bound; [lia|congruence]|].
    destruct (Nat.ltb_spec (length buf) 2); [injection E as <- <- <-; apply leaf_bound; [lia|congruence]|].
    destruct (tag_decode_total buf Hb) as (r & tag & Et & Hr). rewrite Et in E; cbn [bind] in E.
    destruct (Z.leb_spec r 0); [injection E as <- <- <-; apply leaf_bound; [lia|congruence]|].
    destruct (Nat.leb_spec (length buf) (Z.to_nat r)); [injection E as <- <- <-; apply leaf_bound; [lia|congruence]|].
    destruct (rd_total buf 0) as [b0 E0]; [lia|]. rewrite E0 in E; cbn [bind] in E.
    destruct (rd_total buf (Z.to_nat r)) as [bl El]; [lia|]. rewrite El in E; cbn [bind] in E.
    assert (Hbl : is_byte bl) by (eapply rd_byte; eauto).
    destruct (Z.eqb_spec bl 128) as [Eb|Eb].
    + destruct (Z.eqb_spec (Z.land b0 32) 0) as [Ec|Ec]; [injection E as <- <- <-; apply leaf_bound; [lia|congruence]|].
      destruct (indef_c f buf (S (Z.to_nat r)) 0) as [[[e l] c]| |] eqn:Ei; cbn [bind] in E; [|discriminate|discriminate].
      destruct (ber_total f buf Hb Hs) as [_ T]. destruct (T (S (Z.to_nat r)) 0) as (e' & l' & Ti & Hi); [lia|lia|lia|]. rewrite (proj2 (decode_same f buf)), Ei in Ti. cbn [bind] in Ti. injection Ti as -> ->.
      destruct (IH buf Hb Hs) as [_ IHi]. destruct (IHi (S (Z.to_nat r)) 0 e' l' c Ei) as (C1 & C2 & C3 & C4 & C5); [lia|lia|lia|].
      remember (1 + fst c) as ca eqn:Hca. remember (1 + snd c) as cb eqn:Hcb.
      assert (K : forall x : Z * option ber_tlv, snd x = None -> Ret (x, (ca, cb)) = Ret (r0, t0, c0) -> decode_bound (Zlen buf) r0 t0 c0).
      { intros [x1 x2] Hx Q. cbn in Hx. subst x2. injection Q as <- <- <-. unfold decode_bound. cbn [fst snd]. repeat split; try lia; discriminate. }
      destruct (Z.ltb_spec e' 0); [eapply K; [|exact E]; reflexivity|].
      destruct (Z.ltb_spec (Zlen buf) (Z.of_nat (S (Z.to_nat r)) + l')); [eapply K; [|exact E]; reflexivity|].
      unfold Zlen in *. rewrite sub_Ret in E by lia. cbn [bind] in E. unfold small, Zlen in Hs. rewrite to_int_id in E by lia. apply Ret_inj, pair_equal_spec in E as [E Ez]. apply pair_equal_spec in E as [Ex Ey]. clear K. subst r0 t0 c0.
      unfold decode_bound. cbn [fst snd]. split; [lia|]. split; [lia|]. split; [lia|]. split; [lia|]. intros o Qo. split; [lia|]. intros Q. apply Some_inj in Qo. subst o. cbn [b_tag] in Q. exfalso. apply Ec. eapply tag_zero; [exact Hb|exact Et|lia|exact E0|exact Q].
    + assert (K : forall off l, 0 <= l -> (2 <= off)%nat ->
        (if Zlen buf <? Z.of_nat off + l then Ret (-11, None, leaf_cost) else let* v := sub buf off (Z.to_nat l) in
         Ret (to_int (Z.of_nat off + l), Some (mkBer tag l off v (Z.land b0 (Z.lor 0xC0 0x20))), leaf_cost)) = Ret (r0, t0, c0) -> decode_bound (Zlen buf) r0 t0 c0).
      { intros off l L O Q. destruct (Z.ltb_spec (Zlen buf) (Z.of_nat off + l)); [injection Q as <- <- <-; apply leaf_bound; [lia|congruence]|].
        unfold Zlen in *. rewrite sub_Ret in Q by lia. cbn [bind] in Q. unfold small, Zlen in Hs. rewrite to_int_id in Q by lia. apply Ret_inj, pair_equal_spec in Q as [Q Ez]. apply pair_equal_spec in Q as [Ex Ey]. subst r0 c0. apply leaf_bound; lia. }
      rewrite land_80 in E by auto. destruct (Z.ltb_spec bl 128); cbn [negb] in E.
      * unfold is_byte in Hbl. eapply (K _ _); [| |exact E]; lia.
      * rewrite land_7F in E. destruct (Nat.ltb_spec 4 (Z.to_nat (bl mod 128))); [injection E as <- <- <-; apply leaf_bound; [lia|congruence]|].
        set (count := Z.to_nat (bl mod 128)) in *. destruct (Nat.ltb_spec (length buf) (S (Z.to_nat r) + count)); [injection E as <- <- <-; apply leaf_bound; [lia|congruence]|].
        set (off := S (Z.to_nat r)) in *. set (ls := firstn count (skipn off buf)).
        assert (Hll : length ls = count) by (subst ls; rewrite firstn_length, skipn_length; lia).
        assert (Hlb : bytes ls) by (apply bytes_firstn, bytes_skipn; auto). pose proof (be_range ls Hlb) as HR.
        assert (256 ^ Zlen ls <= 4294967296) by (change 4294967296 with (256 ^ 4); apply Z.pow_le_mono_r; unfold Zlen; lia).
        pose proof (len_loop_run count (firstn off buf) ls (skipn count (skipn off buf)) 0) as L. subst ls. rewrite !firstn_skipn in L. rewrite (firstn_length_le buf) in L by lia.
        rewrite L in E by (auto; lia). cbn [bind] in E. eapply (K _ _); [| |exact E]; lia.
  - intros off l e0 l0 c0 E Hl Ho Hf. cbn [indef_c] in E. rewrite sub_rest in E by lia. cbn [bind] in E. set (rest := skipn (off + Z.to_nat l) buf) in *.
    assert (Hrl : length rest = (length buf - (off + Z.to_nat l))%nat) by (subst rest; now rewrite skipn_length).
    assert (Br : bytes rest) by (subst rest; now apply bytes_skipn). assert (Sr : small rest) by (unfold small, Zlen in *; lia).
    destruct (decode_c f rest) as [[[r t] c]| |] eqn:Ed; cbn [bind] in E; [|discriminate|discriminate].
    destruct (ber_total f rest Br Sr) as [T _]. destruct T as (r' & t' & Td & Hok); [lia|]. rewrite (proj1 (decode_same f rest)), Ed in Td. cbn [bind] in Td. injection Td as -> ->.
    destruct (IH rest Br Sr) as [IHd _]. destruct (IHd r' t' c Ed) as (C1 & C2 & C3 & C4 & C5); [lia|]. unfold Zlen in C3, C4.
    destruct (Z.ltb_spec r' 0); [injection E as <- <- <-; unfold Zlen in *; repeat split; lia|]. destruct (Z.eqb_spec r' 0); [injection E as <- <- <-; unfold Zlen in *; repeat split; lia|].
    destruct t' as [t'|]; [|discriminate]. destruct (C5 t' eq_refl) as [C6 C7]. cbn [ber_ok] in Hok. destruct Hok as (Hlen & Hoff & Hr & Hr2 & _).
    destruct (Z.eqb_spec (b_tag t') 0) as [Eg|Eg]; [injection E as <- <- <-; specialize (C7 Eg); unfold Zlen in *; repeat split; lia|].
    unfold small, Zlen in *. rewrite u32_id in E by lia. destruct (indef_c f buf off (l + r')) as [[[e l'] c2]| |] eqn:Ei; cbn [bind] in E; [|discriminate|discriminate]. injection E as <- <- <-.
    destruct (IH buf Hb Hs) as [_ IHi]. destruct (IHi off (l + r') e l' c2 Ei) as (D1 & D2 & D3 & D4 & D5); [lia|lia|lia|]. unfold then_cost. cbn [fst snd]. unfold Zlen in *. repeat split; lia.
Qed.

Lemma decode_cost_total buf : bytes buf -> small buf -> exists r t c, decode_c (S (length buf)) buf = Ret (r, t, c) /\ ber_decode buf = Ret (r, t) /\ ber_ok buf r t /\ decode_bound (Zlen buf) r t c.
Proof.
  intros B S. destruct (ber_decode_safe buf B S) as (r & t & E & O). pose proof E as E'. unfold ber_decode in E'. rewrite (proj1 (decode_same _ _)) in E'.
  destruct (decode_c (Datatypes.S (length buf)) buf) as [[[r' t'] c]| |] eqn:D; cbn [bind] in E'; [|discriminate|discriminate]. injection E' as -> ->.
  exists r, t, c. split; [reflexivity|]. split; [exact E|]. split; [exact O|]. apply (proj1 (decode_cost _ buf B S)) in D; [exact D|lia].
Qed.

Lemma parse_loop_cost : forall fuel itr l, bytes itr -> small itr -> (length itr < fuel)%nat -> exists e l' c, parse_loop_c fuel itr l = Ret (e, l', c) /\
  1 <= fst c /\ 2 <= snd c /\ 4 * fst c <= (Zlen itr + 2) * (Zlen itr + 2) /\ 2 * snd c <= Zlen itr + 4.
Proof.
  induction fuel as [|f IH]; intros itr l B S F; [lia|]. cbn [parse_loop_c]. unfold itr_next_c. destruct (decode_cost_total itr B S) as (r & t & c & -> & _ & O & (C1 & C2 & C3 & C4 & C5)). cbn [bind].
  assert (N : 0 <= Zlen itr) by (unfold Zlen; lia).
  destruct (Z.ltb_spec 0 r) as [P|P].
  2:{ cbn [bind]. destruct (Z.leb_spec r 0); [|lia]. do 3 eexists. split; [reflexivity|]. cbn [fst snd]. repeat split; try lia; nia. }
  destruct t as [t|]; cbn [ber_ok] in O; [|lia]. destruct O as (O1 & O2 & O3 & O4 & O5). destruct (C5 t eq_refl) as [C6 _].
  rewrite sub_rest by (unfold Zlen in *; lia). cbn [bind]. destruct (Z.leb_spec r 0); [lia|].
  set (itr' := skipn (Z.to_nat r) itr). assert (Li : Zlen itr' = Zlen itr - r) by (subst itr'; unfold Zlen in *; rewrite skipn_length; lia).
  assert (Bi : bytes itr') by (subst itr'; now apply bytes_skipn). assert (Si : small itr') by (unfold small in *; lia). assert (Ni : 0 <= Zlen itr') by (unfold Zlen; lia).
  destruct (ber_is_constructed t).
  - assert (Bv : bytes (b_val t)) by (rewrite O5; now apply bytes_firstn, bytes_skipn). assert (Lv : Zlen (b_val t) = b_len t) by (rewrite O5; unfold Zlen in *; rewrite firstn_length, skipn_length; lia).
    destruct (IH (b_val t) l Bv) as (e & l1 & c1 & -> & D1 & D2 & D3 & D4); [unfold small in *; lia|unfold Zlen in *; lia|]. cbn [bind].
    assert (Q : 4 * fst c1 <= r * r) by nia. destruct (e =? 0).
    + destruct (IH itr' l1 Bi Si) as (e2 & l2 & c2 & -> & F1 & F2 & F3 & F4); [unfold Zlen in *; lia|]. cbn [bind]. do 3 eexists. split; [reflexivity|]. unfold then_cost. cbn [fst snd].
      repeat split; try lia; nia.
    + do 3 eexists. split; [reflexivity|]. unfold then_cost. cbn [fst snd]. repeat split; try lia; nia.
  - destruct (IH itr' (l ++ [mkField (b_tag t) (b_len t) (b_val t) 0]) Bi Si) as (e2 & l2 & c2 & -> & F1 & F2 & F3 & F4); [unfold Zlen in *; lia|]. cbn [bind]. do 3 eexists. split; [reflexivity|].
    unfold then_cost. cbn [fst snd]. repeat split; try lia; nia.
Qed.
