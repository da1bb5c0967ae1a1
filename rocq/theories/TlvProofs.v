(** Proofs about TLV parsing and the format conversions. *)
From Verif Require Import Base BaseLemmas BerModel BerSpec BerProofs TlvListModel TlvModel TlvSpec.

(** ** Parsing *)
Lemma encodes_flags enc tag fl v : encodes enc tag fl v -> is_byte fl.
Proof.
  intros [_ (id & lf & _ & Hid & _ & _ & ->)]. apply identifier_bytes in Hid as Hb.
  apply identifier_length in Hid. destruct id as [|b id]; cbn [length] in Hid; [lia|].
  inversion Hb; subst. unfold class_bits; cbn [hd]. unfold is_byte in *. lia.
Qed.
Lemma encodes_vlen enc tag fl v : encodes enc tag fl v -> (length v + 2 <= length enc)%nat.
Proof.
  intros [_ (id & lf & -> & Hid & _ & Hlf & _)]. apply identifier_length in Hid.
  rewrite !app_length. assert (1 <= length lf)%nat by (destruct Hlf; cbn [length]; lia). lia.
Qed.
Lemma flags_constructed t : is_byte (b_flags t) ->
  ber_is_constructed t = ((b_flags t / 32) mod 2 =? 1).
Proof.
  intros H. unfold ber_is_constructed. rewrite land_20 by auto.
  destruct (Z.eqb_spec ((b_flags t / 32) mod 2) 0), (Z.eqb_spec ((b_flags t / 32) mod 2) 1);
    cbn [negb]; auto; lia.
Qed.

Lemma forest_bytes d enc ts : forest d enc ts -> bytes enc.
Proof.
  induction 1; auto.
  - apply bytes_app_intro; auto. eapply encodes_bytes; eauto.
  - apply bytes_app_intro; auto. eapply encodes_bytes; eauto.
  - apply bytes_app_intro; [now apply identifier_bytes|].
    apply bytes_cons; [unfold is_byte; lia|auto].
Qed.

Lemma small_app_r {A} (a b : list A) : small (a ++ b) -> small b.
Proof. unfold small. rewrite Zlen_app. pose proof (Zlen_nonneg a). lia. Qed.
Lemma small_le {A B} (a : list A) (b : list B) : small a -> (length b <= length a)%nat -> small b.
Proof. unfold small; intros; lia. Qed.

Lemma itr_next_encodes enc tag fl v rest : encodes enc tag fl v -> small (enc ++ rest) ->
  exists off, ber_itr_next (enc ++ rest) =
    Ret (Zlen enc, Some (mkBer tag (Zlen v) off v fl), rest).
Proof.
  intros He Hs. unfold ber_itr_next. rewrite (ber_decode_encodes_eq _ _ _ _ _ He Hs); cbn [bind].
  pose proof (encodes_length _ _ _ _ He).
  destruct (Z.ltb_spec 0 (Zlen enc)); [|lia].
  exists (length enc - length v)%nat.
  replace (Z.to_nat (Zlen enc)) with (length enc) by lia.
  rewrite sub_rest by (rewrite app_length; lia). now rewrite skipn_length_app.
Qed.

Lemma parse_complete enc ts : forest true enc ts -> forall fuel l, small enc ->
  (length enc < fuel)%nat ->
  tlv_parse_f fuel enc l = Ret (0, l ++ flat_map leaves ts).
Proof.
  induction 1 as [|enc tag flags v encs ts He Hf Hr IH|enc tag flags v kids encs ts He Hf Hk IHk Hr IH
                 |id v kids encs ts Hd]; intros fuel l Hs Hfu;
    (destruct fuel as [|fuel]; [lia|]); cbn [tlv_parse_f]; [| | |discriminate Hd].
  - cbn. now rewrite app_nil_r.
  - destruct (itr_next_encodes _ _ _ _ encs He Hs) as (off & ->). cbn [bind].
    pose proof (encodes_vlen _ _ _ _ He). rewrite app_length in Hfu.
    destruct (Z.leb_spec (Zlen enc) 0); [lia|].
    rewrite flags_constructed by (cbn; eapply encodes_flags; eauto). cbn [b_flags b_tag b_len b_val].
    rewrite Hf. cbn [Z.eqb]. rewrite IH by (try lia; eapply small_app_r; eauto).
    cbn [flat_map leaves app]. now rewrite <- app_assoc.
  - destruct (itr_next_encodes _ _ _ _ encs He Hs) as (off & ->). cbn [bind].
    pose proof (encodes_vlen _ _ _ _ He). rewrite app_length in Hfu.
    destruct (Z.leb_spec (Zlen enc) 0); [lia|].
    rewrite flags_constructed by (cbn; eapply encodes_flags; eauto). cbn [b_flags b_tag b_len b_val].
    rewrite Hf. cbn [Z.eqb Pos.eqb].
    rewrite IHk by (solve [lia | eapply small_le; [exact Hs|rewrite app_length; lia]]). cbn [bind Z.eqb].
    rewrite IH by (try lia; eapply small_app_r; eauto).
    cbn [flat_map leaves]. now rewrite <- app_assoc.
Qed.

Lemma field_of_in pre mid post f : field_of mid f -> field_of (pre ++ mid ++ post) f.
Proof.
  intros (p & enc & q & fl & -> & H). exists (pre ++ p), enc, (q ++ post), fl.
  split; [now rewrite <- !app_assoc|exact H].
Qed.

Lemma constructed_flag id : identifier id -> (class_bits (hd 0 id) / 32) mod 2 = 1 <-> constructed (hd 0 id).
Proof. intros _. unfold class_bits, constructed. rewrite Z.div_mul by lia. tauto. Qed.

Lemma parse_sound fuel : forall buf l, bytes buf -> small buf -> (length buf < fuel)%nat ->
  exists r added, tlv_parse_f fuel buf l = Ret (r, l ++ added) /\ (r = 0 \/ r = 1) /\
    Forall (field_of buf) added /\
    (r = 0 -> exists ts, forest false buf ts /\ added = flat_map leaves ts).
Proof.
  induction fuel as [|fuel IH]; intros buf l Hb Hs Hf; [lia|]. cbn [tlv_parse_f].
  destruct (itr_next_step buf Hb Hs) as (r & t & Ed & Hok & En). rewrite En; cbn [bind].
  destruct (Z.leb_spec r 0) as [Hr|Hr].
  - exists (if r <? 0 then 1 else 0), []. rewrite app_nil_r.
    split; [reflexivity|]. split; [destruct (r <? 0); auto|]. split; [constructor|].
    intros H0. exists []. split; [|reflexivity].
    assert (r = 0) by (destruct (Z.ltb_spec r 0); lia).
    apply decode_err_nonempty in Ed; auto. destruct Ed as [Ed _]. rewrite Ed by auto. constructor.
  - destruct t as [t|]; cbn [ber_ok] in Hok; [|lia].
    destruct (decode_piece buf r t Hb Hs Ed) as [Hp Hlen].
    set (p := firstn (Z.to_nat r) buf) in *. set (rest := skipn (Z.to_nat r) buf) in *.
    assert (Ebuf : buf = p ++ rest) by (symmetry; apply firstn_skipn).
    assert (Hlp : length p = Z.to_nat r) by (apply firstn_length_le; lia).
    assert (Hbr : bytes rest) by (subst rest; auto).
    assert (Hsr : small rest) by (eapply small_le; [exact Hs|]; subst rest; rewrite skipn_length; lia).
    assert (Hlr : (length rest < fuel)%nat) by (subst rest; rewrite skipn_length; lia).
    destruct Hp as [[He Hl]|(id & Hpe & Hid & Hc & Htag & Hfl & Hl)].
    + pose proof (encodes_flags _ _ _ _ He) as Hfb. rewrite flags_constructed by auto.
      pose proof (encodes_vlen _ _ _ _ He) as Hvl.
      destruct (Z.eqb_spec ((b_flags t / 32) mod 2) 1) as [Hcon|Hcon].
      * assert (Hvb : bytes (b_val t)) by apply He.
        assert (Hvs : small (b_val t)) by (eapply small_le; [exact Hs|]; rewrite Ebuf, app_length; lia).
        destruct (IH (b_val t) l Hvb Hvs) as (r1 & add1 & E1 & Hr1 & Hf1 & Ht1).
        { rewrite Hlp in Hvl. lia. }
        rewrite E1; cbn [bind].
        assert (Hin1 : Forall (field_of buf) add1).
        { destruct He as [_ (id & lf & Hp & _)]. eapply Forall_impl; [|exact Hf1].
          intros f Hff. rewrite Ebuf, Hp. rewrite <- !app_assoc.
          replace (id ++ lf ++ b_val t ++ rest) with ((id ++ lf) ++ b_val t ++ rest)
            by (now rewrite <- app_assoc).
          now apply field_of_in. }
        destruct (Z.eqb_spec r1 0) as [H0|H0].
        -- destruct (IH rest (l ++ add1) Hbr Hsr Hlr) as (r2 & add2 & E2 & Hr2 & Hf2 & Ht2).
           exists r2, (add1 ++ add2). rewrite E2. rewrite app_assoc. split; [reflexivity|].
           split; [auto|]. split.
           ++ apply Forall_app. split; auto. eapply Forall_impl; [|exact Hf2].
              intros f Hff. rewrite Ebuf, <- (app_nil_r rest). now apply field_of_in.
           ++ intros Hz. destruct (Ht2 Hz) as (ts2 & Hfo2 & ->). destruct (Ht1 H0) as (ts1 & Hfo1 & ->).
              exists (Node (b_tag t) ts1 :: ts2). split; [|reflexivity].
              rewrite Ebuf. eapply fo_node; eauto.
        -- exists r1, add1. split; [reflexivity|]. split; [auto|]. split; [auto|]. contradiction.
      * destruct (IH rest (l ++ [mkField (b_tag t) (b_len t) (b_val t) 0]) Hbr Hsr Hlr)
          as (r2 & add2 & E2 & Hr2 & Hf2 & Ht2).
        exists r2, (mkField (b_tag t) (b_len t) (b_val t) 0 :: add2). rewrite E2.
        rewrite <- app_assoc. split; [reflexivity|]. split; [auto|]. split.
        -- constructor.
           ++ exists [], p, rest, (b_flags t). split; [auto|]. cbn [f_tag f_val f_len f_flags].
              split; [auto|]. split; [lia|]. auto.
           ++ eapply Forall_impl; [|exact Hf2].
              intros f Hff. rewrite Ebuf, <- (app_nil_r rest). now apply field_of_in.
        -- intros Hz. destruct (Ht2 Hz) as (ts2 & Hfo2 & ->).
           exists (Leaf (b_tag t) (b_val t) :: ts2). split.
           ++ rewrite Ebuf. eapply fo_leaf; eauto. lia.
           ++ cbn [flat_map leaves app]. now rewrite Hl.
    + assert (Hfb : is_byte (b_flags t)).
      { rewrite Hfl. pose proof (identifier_bytes _ Hid) as Hib. pose proof (identifier_length _ Hid).
        destruct id as [|b id]; cbn [length] in *; [lia|].
        assert (Hbb : is_byte b) by (inversion Hib; assumption).
        unfold class_bits; cbn [hd]. unfold is_byte in *; lia. }
      rewrite flags_constructed by auto.
      assert (Hcon : (b_flags t / 32) mod 2 = 1) by (rewrite Hfl; now apply constructed_flag).
      rewrite Hcon. cbn [Z.eqb Pos.eqb].
      assert (Hpb : bytes p) by (subst p; auto).
      assert (Hvb : bytes (b_val t)).
      { rewrite Hpe in Hpb. apply bytes_app in Hpb. destruct Hpb as [_ Hpb]. inversion Hpb; auto. }
      assert (Hvl : (length (b_val t) + 2 <= length p)%nat).
      { rewrite Hpe, app_length. cbn [length]. apply identifier_length in Hid. lia. }
      assert (Hvs : small (b_val t)) by (eapply small_le; [exact Hs|]; rewrite Ebuf, app_length; lia).
      destruct (IH (b_val t) l Hvb Hvs) as (r1 & add1 & E1 & Hr1 & Hf1 & Ht1).
      { rewrite Hlp in Hvl. lia. }
      rewrite E1; cbn [bind].
      assert (Hin1 : Forall (field_of buf) add1).
      { eapply Forall_impl; [|exact Hf1].
        intros f Hff. rewrite Ebuf, Hpe. rewrite <- !app_assoc.
        replace (id ++ (128 :: b_val t) ++ rest) with ((id ++ [128]) ++ b_val t ++ rest)
          by (now rewrite <- app_assoc).
        now apply field_of_in. }
      destruct (Z.eqb_spec r1 0) as [H0|H0].
      * destruct (IH rest (l ++ add1) Hbr Hsr Hlr) as (r2 & add2 & E2 & Hr2 & Hf2 & Ht2).
        exists r2, (add1 ++ add2). rewrite E2. rewrite app_assoc. split; [reflexivity|].
        split; [auto|]. split.
        -- apply Forall_app. split; auto. eapply Forall_impl; [|exact Hf2].
           intros f Hff. rewrite Ebuf, <- (app_nil_r rest). now apply field_of_in.
        -- intros Hz. destruct (Ht2 Hz) as (ts2 & Hfo2 & ->). destruct (Ht1 H0) as (ts1 & Hfo1 & ->).
           exists (Node (b_tag t) ts1 :: ts2). split; [|reflexivity].
           rewrite Ebuf, Hpe, <- app_assoc, Htag. cbn [app]. eapply fo_indef; eauto.
      * exists r1, add1. split; [reflexivity|]. split; [auto|]. split; [auto|]. contradiction.
Qed.

(** Without octet 80 there is no indefinite form. *)
Lemma forest_definite buf ts : forest false buf ts -> ~ In 128 buf -> forest true buf ts.
Proof.
  induction 1 as [|enc tag flags v encs ts He Hf Hr IH|enc tag flags v kids encs ts He Hf Hk IHk Hr IH
                 |id v kids encs ts Hd]; intros Hn.
  - constructor.
  - eapply fo_leaf; eauto. apply IH. intros Hx; apply Hn, in_or_app; auto.
  - eapply fo_node; eauto.
    + apply IHk. intros Hx. apply Hn, in_or_app. left.
      destruct He as [_ (id & lf & -> & _)]. apply in_or_app; right; apply in_or_app; auto.
    + apply IH. intros Hx; apply Hn, in_or_app; auto.
  - exfalso. apply Hn, in_or_app. right; left; auto.
Qed.

Lemma parse_forest enc ts l : forest true enc ts -> small enc ->
  tlv_parse enc l = Ret (0, l ++ flat_map leaves ts).
Proof. intros. apply parse_complete; auto. Qed.

Lemma parse_any buf l : bytes buf -> small buf ->
  exists r added, tlv_parse buf l = Ret (r, l ++ added) /\ (r = 0 \/ r = 1) /\
    Forall (field_of buf) added /\
    (r = 0 -> exists ts, forest false buf ts /\ added = flat_map leaves ts).
Proof. intros. apply parse_sound; auto. Qed.

Lemma parse_success_iff buf l : bytes buf -> small buf -> ~ In 128 buf ->
  exists r l', tlv_parse buf l = Ret (r, l') /\
    (r = 0 <-> exists ts, forest true buf ts).
Proof.
  intros Hb Hs Hn. destruct (parse_any buf l Hb Hs) as (r & added & E & Hr & _ & Ht).
  exists r, (l ++ added). split; auto. split.
  - intros H0. destruct (Ht H0) as (ts & Hfo & _). exists ts. now apply forest_definite.
  - intros (ts & Hfo). rewrite (parse_forest _ _ l Hfo Hs) in E. congruence.
Qed.

(** ** Decimal fields *)
Lemma dec_acc l a : fold_left (fun a b => a * 100 + (b / 16) * 10 + b mod 16) l a =
  a * 100 ^ Zlen l + decval l.
Proof.
  unfold decval. revert a; induction l as [|b l IH]; intros a; cbn [fold_left].
  - unfold Zlen; cbn. lia.
  - rewrite (IH (a * 100 + b / 16 * 10 + b mod 16)), (IH (0 * 100 + b / 16 * 10 + b mod 16)).
    unfold Zlen; cbn [length]. rewrite Nat2Z.inj_succ, Z.pow_succ_r by lia. ring.
Qed.
Lemma dec_cons b l : decval (b :: l) = (b / 16 * 10 + b mod 16) * 100 ^ Zlen l + decval l.
Proof. unfold decval at 1; cbn [fold_left]. rewrite dec_acc. reflexivity. Qed.
Lemma dec_range l : bcd l -> 0 <= decval l < 100 ^ Zlen l.
Proof.
  induction 1 as [|b l (Hb & H1 & H2) Hl IH]; [unfold decval, Zlen; cbn; lia|].
  rewrite dec_cons. unfold Zlen in *; cbn [length]. rewrite Nat2Z.inj_succ, Z.pow_succ_r by lia.
  unfold is_byte in Hb. assert (0 <= b / 16 * 10 + b mod 16 <= 99) by lia. nia.
Qed.

Lemma shiftr4 b : Z.shiftr b 4 = b / 16.
Proof. rewrite Z.shiftr_div_pow2 by lia. reflexivity. Qed.
Lemma landF b : Z.land b 15 = b mod 16.
Proof. change 15 with (Z.ones 4). rewrite Z.land_ones by lia. reflexivity. Qed.
Lemma landFF b : Z.land b 255 = b mod 256.
Proof. change 255 with (Z.ones 8). rewrite Z.land_ones by lia. reflexivity. Qed.
Lemma shiftr8 b : Z.shiftr b 8 = b / 256.
Proof. rewrite Z.shiftr_div_pow2 by lia. reflexivity. Qed.

Lemma n_loop_bcd l : bcd l -> forall v,
  n_to_uint_loop l v = (0, if Nat.eqb (length l) 0 then v else u32 (v * 100 ^ Zlen l + decval l)).
Proof.
  induction 1 as [|b l (Hb & H1 & H2) Hl IH]; intros v; [reflexivity|].
  cbn [n_to_uint_loop length Nat.eqb]. rewrite shiftr4, landF.
  destruct (Z.ltb_spec 9 (b / 16)); [lia|]. destruct (Z.ltb_spec 9 (b mod 16)); [lia|].
  rewrite IH. f_equal.
  rewrite dec_cons. unfold Zlen; cbn [length]. rewrite Nat2Z.inj_succ, Z.pow_succ_r by lia.
  change (Z.of_nat (length l)) with (Zlen l). set (P := 100 ^ Zlen l). set (d1 := b / 16). set (d2 := b mod 16).
  assert (EQ : u32 (u32 (v * 10 + d1) * 10 + d2) = u32 (v * 100 + d1 * 10 + d2)).
  { unfold u32. rewrite Z.add_mod by lia. rewrite Z.mul_mod_idemp_l by lia. rewrite <- Z.add_mod by lia.
    f_equal. ring. }
  destruct (Nat.eqb_spec (length l) 0) as [E|E].
  - rewrite EQ. destruct l; [|discriminate]. subst P. unfold decval, Zlen; cbn. f_equal. ring.
  - rewrite EQ. unfold u32. rewrite Z.add_mod by lia. rewrite Z.mul_mod_idemp_l by lia.
    rewrite <- Z.add_mod by lia. f_equal. ring.
Qed.

Lemma n_to_uint_bcd l : bcd l -> l <> [] -> format_n_to_uint l = (0, Some (u32 (decval l))).
Proof.
  intros H Hn. unfold format_n_to_uint. destruct l as [|b l]; [contradiction|].
  rewrite (n_loop_bcd _ H). cbn [length Nat.eqb]. do 3 f_equal; try lia.
Qed.

Lemma n_loop_not_bcd l : bytes l -> forall v, ~ bcd l ->
  fst (n_to_uint_loop l v) = 1 \/ fst (n_to_uint_loop l v) = 2.
Proof.
  induction 1 as [|b l Hb Hl IH]; intros v Hn; [exfalso; apply Hn; constructor|].
  cbn [n_to_uint_loop]. rewrite shiftr4, landF.
  destruct (Z.ltb_spec 9 (b / 16)); [auto|]. destruct (Z.ltb_spec 9 (b mod 16)); [auto|].
  apply IH. intros Hc. apply Hn. constructor; auto.
Qed.

Lemma n_to_uint_err l : bytes l -> l <> [] -> ~ bcd l ->
  fst (format_n_to_uint l) = 1 \/ fst (format_n_to_uint l) = 2.
Proof.
  intros Hb Hn H. unfold format_n_to_uint. destruct l as [|b l]; [contradiction|].
  pose proof (n_loop_not_bcd _ Hb 0 H) as Q. destruct (n_to_uint_loop (b :: l) 0); exact Q.
Qed.

(** Writing digits from the right. *)
Lemma uint_to_n_run k : forall pre post value fuel, length pre = k -> bcd post ->
  0 <= value -> (2 * k < fuel)%nat ->
  exists pre', uint_to_n_loop fuel value (pre ++ post) k true = Ret (pre' ++ post) /\
    length pre' = k /\ bcd pre' /\ decval pre' = value mod 100 ^ Z.of_nat k.
Proof.
  induction k as [|k IH]; intros pre post value fuel Hl Hp Hv Hf.
  - destruct pre; [|discriminate]. destruct fuel; [lia|]. exists []. cbn [uint_to_n_loop Nat.eqb app].
    split; [auto|]. split; [auto|]. split; [constructor|]. cbn. rewrite Z.mod_1_r. reflexivity.
  - destruct (exists_last (l := pre)) as (pre0 & x & ->); [destruct pre; discriminate|].
    rewrite app_length in Hl; cbn [length] in Hl.
    assert (Hl0 : length pre0 = k) by lia.
    destruct fuel as [|fuel]; [lia|]. destruct fuel as [|fuel]; [lia|].
    assert (STEP : exists d1 d2, 0 <= d1 <= 9 /\ 0 <= d2 <= 9 /\ d1 * 10 + d2 = value mod 100 /\
      uint_to_n_loop (S (S fuel)) value ((pre0 ++ [x]) ++ post) (S k) true =
      uint_to_n_loop fuel (value / 100) (pre0 ++ (d1 * 16 + d2) :: post) k true).
    { set (f := fun v => if v =? 0 then (0, v) else (v mod 10, v / 10)).
      assert (F : forall v, 0 <= v -> f v = (v mod 10, v / 10)).
      { intros v Hvv. unfold f. destruct (Z.eqb_spec v 0); subst; reflexivity. }
      exists (value / 10 mod 10), (value mod 10).
      split; [lia|]. split; [lia|]. split; [lia|].
      cbn [uint_to_n_loop Nat.eqb]. fold (f value). rewrite F by auto. cbv iota beta.
      replace (S k - 1)%nat with k by lia. rewrite <- app_assoc. cbn [app].
      rewrite wr_app by auto. cbn [bind].
      fold (f (value / 10)). rewrite F by lia. cbv iota beta.
      rewrite rd_app_mid by auto. cbn [bind].
      rewrite wr_app by auto. cbn [bind]. rewrite Z.div_div by lia. change (10 * 10) with 100.
      f_equal. f_equal. f_equal. rewrite Z.lor_comm, lor_shiftl by lia. change (2 ^ 4) with 16. apply u8_id. lia. }
    destruct STEP as (d1 & d2 & Hd1 & Hd2 & Hd & ->).
    assert (Hbb : is_byte (d1 * 16 + d2) /\ (d1 * 16 + d2) / 16 <= 9 /\ (d1 * 16 + d2) mod 16 <= 9)
      by (unfold is_byte; lia).
    destruct (IH pre0 ((d1 * 16 + d2) :: post) (value / 100) fuel) as (pre' & E & H1 & H2 & H3); auto.
    { constructor; auto. }
    { lia. }
    { lia. }
    exists (pre' ++ [d1 * 16 + d2]). rewrite <- app_assoc. cbn [app]. split; [exact E|].
    split; [rewrite app_length; cbn [length]; lia|]. split.
    + apply Forall_app; split; auto.
    + unfold decval. rewrite fold_left_app. cbn [fold_left]. fold (decval pre'). rewrite H3.
      rewrite Nat2Z.inj_succ, Z.pow_succ_r by lia.
      replace ((d1 * 16 + d2) / 16) with d1 by lia. replace ((d1 * 16 + d2) mod 16) with d2 by lia.
      set (P := 100 ^ Z.of_nat k). assert (0 < P) by (apply Z.pow_pos_nonneg; lia).
      rewrite Z.rem_mul_r by lia. lia.
Qed.

Lemma uint_to_n_ok value buf : 0 <= value -> buf <> [] ->
  exists buf', uint_to_format_n value buf = Ret (Some buf') /\ length buf' = length buf /\
    bcd buf' /\ decval buf' = value mod 100 ^ Zlen buf.
Proof.
  intros Hv Hn. unfold uint_to_format_n. destruct (Nat.eqb_spec (length buf) 0) as [E|E].
  { destruct buf; [contradiction|discriminate]. }
  destruct (uint_to_n_run (length buf) buf [] value (S (2 * length buf))) as (pre' & E1 & H1 & H2 & H3);
    auto; [constructor|]. rewrite !app_nil_r in E1. rewrite E1. cbn [bind]. eauto.
Qed.

(** Round trip *)
Lemma n_round_trip value buf : 0 <= value < 4294967296 -> buf <> [] ->
  exists buf', uint_to_format_n value buf = Ret (Some buf') /\ length buf' = length buf /\
    bcd buf' /\ decval buf' = value mod 10 ^ (2 * Zlen buf) /\
    format_n_to_uint buf' = (0, Some (value mod 10 ^ (2 * Zlen buf))).
Proof.
  intros Hv Hn. destruct (uint_to_n_ok value buf) as (buf' & E & Hl & Hb & Hd); auto; [lia|].
  exists buf'. rewrite Z.pow_mul_r by lia. change (10 ^ 2) with 100.
  split; auto. split; auto. split; auto. split; auto.
  rewrite n_to_uint_bcd; auto.
  - rewrite Hd. do 2 f_equal. apply u32_id. 
    assert (0 < 100 ^ Zlen buf) by (apply Z.pow_pos_nonneg; lia). split; [apply Z.mod_pos_bound; lia|].
    eapply Z.le_lt_trans; [apply Z.mod_le; lia|lia].
  - destruct buf'; [|discriminate]. destruct buf; [contradiction|discriminate].
Qed.

(** ** Binary fields *)
Lemma uint_to_b_run k : forall pre post value, length pre = k -> 0 <= value ->
  exists pre', uint_to_b_loop k value (pre ++ post) = Ret (pre' ++ post) /\
    length pre' = k /\ bytes pre' /\ be pre' = value mod 256 ^ Z.of_nat k.
Proof.
  induction k as [|k IH]; intros pre post value Hl Hv.
  - destruct pre; [|discriminate]. exists []. split; [auto|]. split; [auto|]. split; [auto|].
    cbn. now rewrite Z.mod_1_r.
  - destruct (exists_last (l := pre)) as (pre0 & x & ->); [destruct pre; discriminate|].
    rewrite app_length in Hl; cbn [length] in Hl.
    cbn [uint_to_b_loop]. rewrite <- app_assoc. cbn [app].
    rewrite wr_app by lia. cbn [bind]. rewrite landFF, shiftr8.
    destruct (IH pre0 (value mod 256 :: post) (value / 256)) as (pre' & E & H1 & H2 & H3); [lia|lia|].
    exists (pre' ++ [value mod 256]). rewrite <- app_assoc. cbn [app]. split; [exact E|].
    split; [rewrite app_length; cbn [length]; lia|]. split.
    + apply bytes_app_intro; auto. apply bytes_cons; auto. unfold is_byte; lia.
    + rewrite be_app, H3. unfold be; cbn [fold_left]. unfold Zlen; cbn [length].
      rewrite (Nat2Z.inj_succ k), Z.pow_succ_r by lia. change (256 ^ Z.of_nat 1) with 256.
      assert (0 < 256 ^ Z.of_nat k) by (apply Z.pow_pos_nonneg; lia).
      rewrite Z.rem_mul_r by lia. lia.
Qed.

Lemma b_to_uint_acc l : bytes l -> forall a, 0 <= a -> a * 256 ^ Zlen l + be l < 4294967296 ->
  fold_left (fun v b => Z.lor (u32 (Z.shiftl v 8)) b) l a = a * 256 ^ Zlen l + be l.
Proof.
  induction 1 as [|b l Hb Hl IH]; intros a Ha Hr; cbn [fold_left].
  - unfold Zlen, be; cbn. lia.
  - rewrite be_cons in *. unfold Zlen in *; cbn [length] in *.
    rewrite Nat2Z.inj_succ, Z.pow_succ_r in * by lia.
    pose proof (be_range l Hl) as Hbr. unfold Zlen in Hbr.
    set (P := 256 ^ Z.of_nat (length l)) in *.
    assert (0 < P) by (apply Z.pow_pos_nonneg; lia). unfold is_byte in Hb.
    rewrite shift_in by (unfold is_byte; nia). rewrite IH by nia. nia.
Qed.

Lemma b_to_uint_ok l : bytes l -> (1 <= length l <= 4)%nat ->
  format_b_to_uint l = (0, Some (be l)).
Proof.
  intros Hb Hl. unfold format_b_to_uint. destruct l as [|b l]; [cbn in Hl; lia|].
  destruct (Nat.ltb_spec 4 (length (b :: l))); [lia|].
  rewrite (b_to_uint_acc _ Hb 0); [reflexivity|lia|].
  pose proof (be_range _ Hb) as [_ H1]. cbn [Z.mul]. rewrite Z.add_0_l.
  eapply Z.lt_le_trans; [exact H1|]. change 4294967296 with (256 ^ 4).
  apply Z.pow_le_mono_r; lia.
Qed.

Lemma b_round_trip value buf : 0 <= value < 4294967296 -> (1 <= length buf)%nat ->
  exists buf', uint_to_format_b value buf = Ret (Some buf') /\ length buf' = length buf /\
    bytes buf' /\ be buf' = value mod 256 ^ Zlen buf /\
    ((length buf <= 4)%nat -> format_b_to_uint buf' = (0, Some (value mod 256 ^ Zlen buf))).
Proof.
  intros Hv Hl. unfold uint_to_format_b. destruct (Nat.eqb_spec (length buf) 0); [lia|].
  destruct (uint_to_b_run (length buf) buf [] value) as (pre' & E & H1 & H2 & H3); [auto|lia|].
  rewrite !app_nil_r in E. rewrite E. cbn [bind]. exists pre'. repeat (split; auto).
  intros H4. rewrite b_to_uint_ok by (auto; lia). now rewrite H3.
Qed.

(** ** Text *)
Lemma ans_loop_run keep buf : forall txt0 old, (length txt0 < length old)%nat ->
  ans_loop keep buf (txt0 ++ skipn (length txt0) old) (length txt0) =
  let txt := txt0 ++ firstn (length old - 1 - length txt0) (filter keep buf) in
  Ret (txt ++ 0 :: skipn (S (length txt)) old).
Proof.
  assert (W : forall txt0 (old : list Z) v, (length txt0 < length old)%nat ->
     wr (txt0 ++ skipn (length txt0) old) (length txt0) v = Ret (txt0 ++ v :: skipn (S (length txt0)) old)).
  { intros txt0 old v Hl. destruct (rd_total old (length txt0) Hl) as (x & Ex).
    rewrite (skipn_rd _ _ _ Ex). now rewrite wr_app. }
  assert (L : forall txt0 (old : list Z), (length txt0 < length old)%nat ->
     length (txt0 ++ skipn (length txt0) old) = length old).
  { intros. rewrite app_length, skipn_length. lia. }
  induction buf as [|b buf IH]; intros txt0 old Hl; cbn [ans_loop filter].
  - cbv zeta. rewrite firstn_nil, app_nil_r. apply W; auto.
  - cbv zeta. rewrite L by auto. destruct (Nat.eqb_spec (length old - length txt0) 1) as [E|E].
    + replace (length old - 1 - length txt0)%nat with 0%nat by lia. rewrite firstn_O, app_nil_r.
      apply W; auto.
    + destruct (keep b).
      * rewrite W by auto. cbn [bind].
        assert (Q : txt0 ++ b :: skipn (S (length txt0)) old =
                    (txt0 ++ [b]) ++ skipn (length (txt0 ++ [b])) old).
        { rewrite app_length, <- app_assoc. cbn [length app]. now rewrite Nat.add_1_r. }
        rewrite Q. replace (S (length txt0)) with (length (txt0 ++ [b])) by (rewrite app_length; cbn; lia).
        rewrite IH by (rewrite app_length; cbn; lia). cbv zeta.
        replace (length old - 1 - length txt0)%nat with (S (length old - 1 - length (txt0 ++ [b])))
          by (rewrite app_length; cbn; lia).
        cbn [firstn]. rewrite <- !app_assoc. reflexivity.
      * rewrite IH by auto. reflexivity.
Qed.

Lemma ans_text keep buf str : (1 <= length str)%nat ->
  exists str', ans_loop keep buf str 0 = Ret str' /\
    text_in str str' (firstn (length str - 1) (filter keep buf)).
Proof.
  intros Hl. pose proof (ans_loop_run keep buf [] str ltac:(cbn; lia)) as E.
  cbn [app length skipn] in E. rewrite Nat.sub_0_r in E.
  rewrite E. cbv zeta. eexists. split; [reflexivity|].
  split; [|reflexivity]. rewrite firstn_length. lia.
Qed.

Lemma hex_digit_eq d : 0 <= d < 16 -> (if d <? 10 then 48 + d else 65 + (d - 10)) = hex_digit d.
Proof.
  intros H. apply Z.eqb_eq.
  assert (S : forallb (fun x => (if x <? 10 then 48 + x else 65 + (x - 10)) =? hex_digit x)
    (map Z.of_nat (seq 0 16)) = true) by (vm_compute; reflexivity).
  rewrite forallb_forall in S. apply S. apply in_map_iff. exists (Z.to_nat d).
  split; [lia|]. apply in_seq. lia.
Qed.

Lemma hex_text_nth buf i b : bytes buf -> rd buf (Nat.div2 i) = Ret b ->
  nth_error (hex_text buf) i =
    Some (hex_digit (if Nat.even i then b / 16 else b mod 16)).
Proof.
  intros Hb. revert i; induction Hb as [|x buf Hx Hbuf IH]; intros i E.
  - destruct (Nat.div2 i); discriminate.
  - destruct i as [|[|i]].
    + cbn in E. inversion E; reflexivity.
    + cbn in E. inversion E; reflexivity.
    + cbn [Nat.div2] in E. cbn [hex_text flat_map app nth_error Nat.even].
      apply IH. exact E.
Qed.
Lemma hex_text_length buf : length (hex_text buf) = (2 * length buf)%nat.
Proof. induction buf as [|b buf IH]; auto. cbn [hex_text flat_map app length] in *. fold (hex_text buf). lia. Qed.

Lemma b_to_str_run buf : bytes buf -> forall count i (old : list Z),
  (i + count = 2 * length buf)%nat -> (i < length old)%nat ->
  b_to_str_loop count buf (firstn i (hex_text buf) ++ skipn i old) i i =
  let txt := firstn (length old - 1) (hex_text buf) in
  Ret (txt ++ 0 :: skipn (S (length txt)) old).
Proof.
  intros Hb. induction count as [|count IH]; intros i old Hi Hl; cbn [b_to_str_loop]; cbv zeta.
  - assert (Hx : length (firstn i (hex_text buf)) = i).
    { apply firstn_length_le. rewrite hex_text_length. lia. }
    assert (Ei : firstn (length old - 1) (hex_text buf) = firstn i (hex_text buf)).
    { rewrite !firstn_all2; auto; rewrite hex_text_length; lia. }
    rewrite Ei, Hx. destruct (rd_total old i Hl) as (x & Ex).
    rewrite (skipn_rd _ _ _ Ex). now rewrite wr_app.
  - assert (Hx : length (firstn i (hex_text buf)) = i).
    { apply firstn_length_le. rewrite hex_text_length. lia. }
    assert (HL : length (firstn i (hex_text buf) ++ skipn i old) = length old).
    { rewrite app_length, Hx, skipn_length. lia. }
    rewrite HL. destruct (rd_total old i Hl) as (x & Ex).
    destruct (Nat.eqb_spec (length old - i) 1) as [E|E].
    + replace (length old - 1)%nat with i by lia. rewrite Hx.
      rewrite (skipn_rd _ _ _ Ex). now rewrite wr_app.
    + assert (Hd : (Nat.div2 i < length buf)%nat).
      { assert (2 * Nat.div2 i <= i)%nat; [|lia].
        rewrite Nat.div2_div. apply Nat.mul_div_le. lia. }
      destruct (rd_total buf _ Hd) as (b & Eb). rewrite Eb; cbn [bind].
      rewrite shiftr4, landF.
      pose proof (rd_byte _ _ _ Hb Eb) as Hbb.
      rewrite hex_digit_eq by (destruct (Nat.even i); unfold is_byte in Hbb; lia).
      rewrite (skipn_rd _ _ _ Ex). rewrite wr_app by auto. cbn [bind].
      pose proof (hex_text_nth buf i b Hb Eb) as Hn.
      assert (Q : firstn i (hex_text buf) ++ hex_digit (if Nat.even i then b / 16 else b mod 16)
                   :: skipn (S i) old = firstn (S i) (hex_text buf) ++ skipn (S i) old).
      { assert (F : firstn (S i) (hex_text buf) = firstn i (hex_text buf) ++
                     [hex_digit (if Nat.even i then b / 16 else b mod 16)]).
        { now apply firstn_snoc. }
        rewrite F, <- app_assoc. reflexivity. }
      rewrite Q. apply IH; lia.
Qed.

Lemma b_text buf str : bytes buf -> (1 <= length buf)%nat -> (1 <= length str)%nat ->
  exists str', b_to_str buf str = Ret (0, str') /\
    text_in str str' (firstn (length str - 1) (hex_text buf)).
Proof.
  intros Hb H1 H2. unfold b_to_str. destruct (Nat.eqb_spec (length buf) 0); [lia|].
  destruct (Nat.eqb_spec (length str) 0); [lia|]. cbn [orb].
  pose proof (b_to_str_run buf Hb (2 * length buf) 0 str ltac:(lia) ltac:(lia)) as E.
  cbn [firstn app skipn] in E. rewrite E. cbv zeta. cbn [bind]. eexists. split; [reflexivity|].
  split; [|reflexivity]. rewrite firstn_length. lia.
Qed.
