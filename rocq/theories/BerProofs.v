(** Proofs about the BER model. *)
From Verif Require Import Base BaseLemmas BerModel BerSpec.


(** ** Masks on octets *)
Lemma land_1F b : is_byte b -> Z.land b 0x1F = b mod 32.
Proof.
  intros H. change 0x1F with (Z.ones 5). rewrite Z.land_ones by lia. reflexivity.
Qed.
Lemma land_7F b : Z.land b 0x7F = b mod 128.
Proof. change 0x7F with (Z.ones 7). rewrite Z.land_ones by lia. reflexivity. Qed.
Lemma land_80 b : is_byte b -> (Z.land b 0x80 =? 0) = (b <? 128).
Proof. intros H. apply eqb_prop. sweep b. Qed.
Lemma land_E0 b : is_byte b -> Z.land b (Z.lor 0xC0 0x20) = class_bits b.
Proof. intros H. unfold class_bits. apply Z.eqb_eq. sweep b. Qed.
Lemma land_20 b : is_byte b -> (Z.land b 0x20 =? 0) = ((b / 32) mod 2 =? 0).
Proof. intros H. apply eqb_prop. sweep b. Qed.

Lemma shift_in a b : 0 <= a < 16777216 -> is_byte b ->
  Z.lor (u32 (Z.shiftl a 8)) b = a * 256 + b.
Proof.
  intros Ha Hb. unfold is_byte in Hb.
  rewrite u32_id; [|rewrite Z.shiftl_mul_pow2 by lia; lia].
  rewrite lor_shiftl by lia. reflexivity.
Qed.

(** ** Big-endian values *)
Lemma be_acc l a : fold_left (fun a b => a * 256 + b) l a = a * 256 ^ Zlen l + be l.
Proof.
  unfold be, Zlen. revert a; induction l as [|b l IH]; intros a; cbn [fold_left length].
  - simpl Z.of_nat. rewrite Z.pow_0_r. lia.
  - rewrite (IH (a * 256 + b)), (IH (0 * 256 + b)).
    rewrite Nat2Z.inj_succ, Z.pow_succ_r by lia. lia.
Qed.
Lemma be_cons b l : be (b :: l) = b * 256 ^ Zlen l + be l.
Proof. unfold be at 1; cbn [fold_left]. rewrite be_acc. lia. Qed.
Lemma be_app a b : be (a ++ b) = be a * 256 ^ Zlen b + be b.
Proof. unfold be at 1. rewrite fold_left_app. apply be_acc. Qed.
Lemma be_range l : bytes l -> 0 <= be l < 256 ^ Zlen l.
Proof.
  induction 1 as [|b l Hb Hl IH]; [unfold be, Zlen; simpl; lia|].
  rewrite be_cons. unfold Zlen in *; cbn [length].
  rewrite Nat2Z.inj_succ, Z.pow_succ_r by lia. unfold is_byte in Hb. nia.
Qed.

(** ** Tag decode *)
Lemma tag_loop_total fuel : forall buf off tag, bytes buf ->
  (1 <= off)%nat -> (off < 4)%nat -> (4 - off <= fuel)%nat ->
  exists r t, ber_tag_loop fuel buf off tag = Ret (r, t) /\
   (r <= 0 \/ (Z.of_nat off < r <= 4 /\ r <= Zlen buf)).
Proof.
  induction fuel as [|f IH]; intros buf off tag Hb H1 H4 Hf; [lia|].
  cbn [ber_tag_loop].
  destruct (Nat.leb_spec (length buf) off).
  { do 2 eexists; split; [reflexivity|]. left; lia. }
  destruct (rd_total buf off) as [b Eb]; auto. rewrite Eb; cbn [bind].
  destruct (Z.land b 128 =? 0).
  { do 2 eexists; split; [reflexivity|]. right. unfold Zlen; lia. }
  destruct (Nat.leb_spec 4 (S off)).
  { do 2 eexists; split; [reflexivity|]. left; lia. }
  destruct (IH buf (S off) (Z.lor (u32 (Z.shiftl tag 8)) b)) as (r & t & E & HH); auto; try lia.
  rewrite E. do 2 eexists; split; [reflexivity|]. lia.
Qed.

Lemma tag_decode_total buf : bytes buf ->
  exists r t, ber_tag_decode buf = Ret (r, t) /\
    (r <= 0 \/ (1 <= r <= 4 /\ r <= Zlen buf)).
Proof.
  intros Hb. unfold ber_tag_decode.
  destruct (Nat.eqb_spec (length buf) 0).
  { do 2 eexists; split; [reflexivity|]; lia. }
  destruct (rd_total buf 0) as [b0 E0]; [lia|]. rewrite E0; cbn [bind].
  destruct (Z.land b0 31 =? 31).
  - destruct (tag_loop_total 4 buf 1 b0) as (r & t & E & H); auto; try lia.
    rewrite E. do 2 eexists; split; [reflexivity|]. lia.
  - do 2 eexists; split; [reflexivity|]. right; unfold Zlen; lia.
Qed.

(** Soundness of the loop: the octets from [off] form the rest of an identifier *)
Lemma tag_loop_sound fuel : forall buf off tag r t, bytes buf ->
  0 <= tag < 256 ^ Z.of_nat off -> (1 <= off)%nat -> (off <= 3)%nat ->
  ber_tag_loop fuel buf off tag = Ret (r, t) -> 0 < r ->
  exists more last rest,
    skipn off buf = more ++ last :: rest /\
    Forall (fun b => 128 <= b < 256) more /\ 0 <= last < 128 /\
    r = Z.of_nat (off + length more + 1) /\ r <= 4 /\
    t = tag * 256 ^ Zlen (more ++ [last]) + be (more ++ [last]).
Proof.
  induction fuel as [|f IH]; intros buf off tag r t Hb Ht H1 H3 E Hr; [discriminate|].
  cbn [ber_tag_loop] in E.
  destruct (Nat.leb_spec (length buf) off) as [Hl|Hl].
  { inversion E; lia. }
  destruct (rd_total buf off) as [b Eb]; auto. rewrite Eb in E; cbn [bind] in E.
  assert (Hbb : is_byte b) by (eapply rd_byte; eauto).
  rewrite (land_80 b Hbb) in E.
  assert (Hsk : skipn off buf = b :: skipn (S off) buf).
  { now apply skipn_rd. }
  assert (Htag : 0 <= tag < 16777216).
  { split; [lia|]. eapply Z.lt_le_trans; [apply Ht|].
    change 16777216 with (256 ^ 3). apply Z.pow_le_mono_r; lia. }
  rewrite (shift_in tag b Htag Hbb) in E.
  destruct (Z.ltb_spec b 128).
  - injection E as <- <-. exists [], b, (skipn (S off) buf).
    repeat split; auto; try (unfold is_byte in *; simpl in *; lia).
  - destruct (Nat.leb_spec 4 (S off)); [inversion E; lia|].
    apply IH in E; auto; try lia.
    + destruct E as (more & last & rest & E1 & Hm & Hlast & Er & Er4 & Et).
      exists (b :: more), last, rest. repeat split; auto; try lia.
      * rewrite Hsk, E1. reflexivity.
      * constructor; auto. unfold is_byte in Hbb; lia.
      * cbn [length]; lia.
      * rewrite Et. cbn [app]. rewrite be_cons. unfold Zlen; cbn [length].
        rewrite Nat2Z.inj_succ, Z.pow_succ_r by lia. ring.
    + rewrite Nat2Z.inj_succ, Z.pow_succ_r by lia. unfold is_byte in Hbb. nia.
Qed.

Lemma tag_decode_sound buf r t : bytes buf -> ber_tag_decode buf = Ret (r, t) -> 0 < r ->
  exists id rest, buf = id ++ rest /\ identifier id /\ t = be id /\ r = Zlen id.
Proof.
  intros Hb E Hr. unfold ber_tag_decode in E.
  destruct (Nat.eqb_spec (length buf) 0). { inversion E; lia. }
  destruct buf as [|b0 buf']; [simpl in *; lia|].
  cbn [rd nth_error bind] in E. unfold rd in E; cbn [nth_error bind] in E.
  assert (Hb0 : is_byte b0) by (inversion Hb; auto).
  rewrite (land_1F b0 Hb0) in E.
  destruct (Z.eqb_spec (b0 mod 32) 31) as [E31|E31].
  - apply tag_loop_sound in E; auto; try (unfold is_byte in Hb0; simpl; lia).
    destruct E as (more & last & rest & E1 & Hm & Hlast & Er & Er4 & Et).
    cbn [skipn] in E1.
    exists (b0 :: more ++ [last]), rest. subst buf'. repeat split.
    + cbn [app]. now rewrite <- app_assoc.
    + constructor; auto. lia.
    + rewrite be_cons. auto.
    + unfold Zlen; cbn [length]. rewrite app_length; cbn [length]. lia.
  - inversion E; subst. exists [t], buf'. repeat split; auto.
    + constructor; auto.
Qed.

Lemma tag_loop_complete fuel : forall more pre last rest tag,
  bytes pre -> Forall (fun b => 128 <= b < 256) more -> 0 <= last < 128 ->
  0 <= tag < 256 ^ Zlen pre -> (1 <= length pre)%nat ->
  (length pre + length more <= 3)%nat -> (length more < fuel)%nat ->
  ber_tag_loop fuel (pre ++ more ++ last :: rest) (length pre) tag =
    Ret (Zlen (pre ++ more ++ [last]),
         tag * 256 ^ Zlen (more ++ [last]) + be (more ++ [last])).
Proof.
  induction fuel as [|f IH]; intros more pre last rest tag Hp Hm Hl Ht H1 H3 Hf; [lia|].
  cbn [ber_tag_loop].
  destruct (Nat.leb_spec (length (pre ++ more ++ last :: rest)) (length pre)) as [Hx|Hx].
  { rewrite !app_length in Hx; cbn [length] in Hx; lia. }
  assert (Htag : 0 <= tag < 16777216).
  { split; [lia|]. eapply Z.lt_le_trans; [apply Ht|].
    change 16777216 with (256 ^ 3). apply Z.pow_le_mono_r; unfold Zlen; lia. }
  destruct more as [|b more].
  - cbn [app]. rewrite rd_app_mid by auto. cbn [bind].
    assert (Hbl : is_byte last) by (unfold is_byte; lia).
    rewrite land_80 by auto. destruct (Z.ltb_spec last 128); [|lia].
    rewrite shift_in by auto. unfold Zlen, be; rewrite app_length; cbn [length fold_left].
    simpl (Z.of_nat 1). rewrite Z.pow_1_r.
    do 2 f_equal; lia.
  - cbn [app]. rewrite rd_app_mid by auto. cbn [bind].
    inversion Hm as [|? ? Hb Hm']; subst.
    assert (Hbb : is_byte b) by (unfold is_byte; lia).
    rewrite land_80 by auto. destruct (Z.ltb_spec b 128); [lia|].
    cbn [length] in *. destruct (Nat.leb_spec 4 (S (length pre))); [lia|].
    rewrite shift_in by auto.
    replace (pre ++ b :: more ++ last :: rest) with ((pre ++ [b]) ++ more ++ last :: rest)
      by (now rewrite <- app_assoc).
    replace (S (length pre)) with (length (pre ++ [b])) by (rewrite app_length; simpl; lia).
    rewrite IH; auto.
    + do 2 f_equal.
      * rewrite <- app_assoc. reflexivity.
      * rewrite be_cons. unfold Zlen; cbn [length].
        rewrite Nat2Z.inj_succ, Z.pow_succ_r by lia. ring.
    + unfold Zlen in *; rewrite app_length; cbn [length].
      rewrite Nat.add_1_r, Nat2Z.inj_succ, Z.pow_succ_r by lia. unfold is_byte in Hbb. nia.
    + rewrite app_length; cbn [length]; lia.
    + rewrite app_length; cbn [length]; lia.
    + lia.
Qed.

Lemma tag_decode_complete id rest : identifier id ->
  ber_tag_decode (id ++ rest) = Ret (Zlen id, be id).
Proof.
  intros H. destruct H as [b Hb H|b0 more last Hb0 H31 Hm Hl Hlen]; unfold ber_tag_decode.
  - cbn [app length Nat.eqb]. unfold rd; cbn [nth_error bind].
    rewrite land_1F by auto. destruct (Z.eqb_spec (b mod 32) 31); [lia|]. reflexivity.
  - cbn [app length Nat.eqb]. unfold rd; cbn [nth_error bind].
    rewrite land_1F by auto. rewrite H31. cbn [Z.eqb Pos.eqb].
    pose proof (tag_loop_complete 4 more [b0] last rest b0) as T.
    cbn [app length] in T. rewrite <- app_assoc. cbn [app].
    rewrite T; auto; try lia.
    now rewrite be_cons.
Qed.

Lemma identifier_bytes id : identifier id -> bytes id.
Proof.
  destruct 1 as [b Hb H|b0 more last Hb0 H31 Hm Hl Hlen].
  - constructor; auto; constructor.
  - constructor; auto. apply bytes_app; split.
    + eapply Forall_impl; [|exact Hm]. unfold is_byte; intros; simpl in *; lia.
    + constructor; [unfold is_byte; lia|constructor].
Qed.
Lemma identifier_length id : identifier id -> (1 <= length id <= 4)%nat.
Proof.
  destruct 1 as [b Hb H|b0 more last Hb0 H31 Hm Hl Hlen]; cbn [length]; [lia|].
  rewrite app_length; cbn [length]; lia.
Qed.

(** ** Length octets *)
Lemma len_loop_run count : forall pre ls rest acc,
  bytes ls -> length ls = count -> 0 <= acc -> acc * 256 ^ Zlen ls + be ls < 4294967296 ->
  ber_len_loop count (pre ++ ls ++ rest) (length pre) acc = Ret (acc * 256 ^ Zlen ls + be ls).
Proof.
  induction count as [|c IH]; intros pre ls rest acc Hls Hc Ha Hr.
  - destruct ls; [|discriminate]. cbn [ber_len_loop]. unfold be, Zlen; simpl. f_equal; lia.
  - destruct ls as [|b ls]; [discriminate|]. cbn [ber_len_loop app].
    rewrite rd_app_mid by auto. cbn [bind].
    inversion Hls as [|? ? Hb Hls']; subst. cbn [length] in Hc.
    pose proof (be_range ls Hls') as HR.
    rewrite be_cons in Hr. unfold Zlen in *; cbn [length] in *.
    rewrite Nat2Z.inj_succ, Z.pow_succ_r in Hr by lia.
    unfold is_byte in Hb.
    assert (Hp : 0 < 256 ^ Z.of_nat (length ls)) by (apply Z.pow_pos_nonneg; lia).
    rewrite shift_in; [|nia|auto].
    replace (pre ++ b :: ls ++ rest) with ((pre ++ [b]) ++ ls ++ rest)
      by (now rewrite <- app_assoc).
    replace (S (length pre)) with (length (pre ++ [b])) by (rewrite app_length; simpl; lia).
    rewrite IH; auto; try lia.
    f_equal. rewrite be_cons. unfold Zlen. rewrite Nat2Z.inj_succ, Z.pow_succ_r by lia. ring.
Qed.

(** ** Fuel *)
Lemma ber_fuel_mono : forall f1 f2 buf, (f1 <= f2)%nat ->
  fle (ber_decode_f f1 buf) (ber_decode_f f2 buf) /\
  (forall off l, fle (ber_indef_f f1 buf off l) (ber_indef_f f2 buf off l)).
Proof.
  induction f1 as [|f1 IH]; intros f2 buf Hle.
  { split; intros; apply fle_NoFuel. }
  destruct f2 as [|f2]; [lia|]. split.
  - cbn [ber_decode_f].
    destruct (Nat.eqb (length buf) 0); [apply fle_refl|].
    destruct (Nat.ltb (length buf) 2); [apply fle_refl|].
    apply fle_bind; [apply fle_refl|]. intros [r tag].
    destruct (r <=? 0); [apply fle_refl|].
    destruct (Nat.leb (length buf) (Z.to_nat r)); [apply fle_refl|].
    apply fle_bind; [apply fle_refl|]. intros b0.
    apply fle_bind; [apply fle_refl|]. intros bl.
    destruct (bl =? 128); [|apply fle_refl].
    destruct (Z.land b0 32 =? 0); [apply fle_refl|].
    apply fle_bind; [apply IH; lia|]. intros [e l]. apply fle_refl.
  - intros off l. cbn [ber_indef_f].
    apply fle_bind; [apply fle_refl|]. intros rest.
    apply fle_bind; [apply IH; lia|]. intros [r t].
    destruct (r <? 0); [apply fle_refl|].
    destruct (r =? 0); [apply fle_refl|].
    destruct t as [t|]; [|apply fle_refl].
    destruct (b_tag t =? 0); [apply fle_refl|]. apply IH; lia.
Qed.

(** ** Totality and memory safety *)
Definition ber_ok (buf : list Z) (r : Z) (t : option ber_tlv) : Prop :=
  match t with
  | None => r <= 0
  | Some t =>
    0 <= b_len t /\ (2 <= b_off t)%nat /\
    r = Z.of_nat (b_off t) + b_len t /\ r <= Zlen buf /\
    b_val t = firstn (Z.to_nat (b_len t)) (skipn (b_off t) buf)
  end.

Lemma ber_total : forall fuel buf, bytes buf -> small buf ->
  ((length buf < fuel)%nat ->
   exists r t, ber_decode_f fuel buf = Ret (r, t) /\ ber_ok buf r t) /\
  (forall off l, 0 <= l -> (off + Z.to_nat l <= length buf)%nat ->
     (length buf - (off + Z.to_nat l) + 1 < fuel)%nat ->
     exists e l', ber_indef_f fuel buf off l = Ret (e, l') /\
       (e < 0 \/ (e = 0 /\ l <= l' /\ (off + Z.to_nat l' <= length buf)%nat))).
Proof.
  induction fuel as [|f IH]; intros buf Hb Hs; [split; intros; lia|]. split.
  - intros Hf. cbn [ber_decode_f].
    destruct (Nat.eqb_spec (length buf) 0); [do 2 eexists; split; [reflexivity|]; simpl; lia|].
    destruct (Nat.ltb_spec (length buf) 2); [do 2 eexists; split; [reflexivity|]; simpl; lia|].
    destruct (tag_decode_total buf Hb) as (r & tag & Et & Hr). rewrite Et; cbn [bind].
    destruct (Z.leb_spec r 0); [do 2 eexists; split; [reflexivity|]; simpl; lia|].
    destruct (Nat.leb_spec (length buf) (Z.to_nat r)); [do 2 eexists; split; [reflexivity|]; simpl; lia|].
    destruct (rd_total buf 0) as [b0 E0]; [lia|]. rewrite E0; cbn [bind].
    destruct (rd_total buf (Z.to_nat r)) as [bl El]; [lia|]. rewrite El; cbn [bind].
    assert (Hbl : is_byte bl) by (eapply rd_byte; eauto).
    assert (FIN : forall off l, 0 <= l -> (2 <= off)%nat -> (off <= length buf)%nat -> exists r t,
      (if Zlen buf <? Z.of_nat off + l then Ret (-11, None)
       else let* v := sub buf off (Z.to_nat l) in
            Ret (to_int (Z.of_nat off + l),
                 Some (mkBer tag l off v (Z.land b0 (Z.lor 0xC0 0x20))))) = Ret (r, t)
      /\ ber_ok buf r t).
    { intros off l Hl Ho Ho2. destruct (Z.ltb_spec (Zlen buf) (Z.of_nat off + l)).
      - do 2 eexists; split; [reflexivity|]. simpl; lia.
      - unfold Zlen in *. rewrite sub_Ret by lia. cbn [bind].
        do 2 eexists; split; [reflexivity|]. unfold small, Zlen in *.
        cbn [ber_ok b_len b_off b_val]. rewrite to_int_id by lia.
        unfold Zlen. repeat split; auto; lia. }
    unfold Zlen in Hr.
    destruct (Z.eqb_spec bl 128).
    + destruct (Z.land b0 32 =? 0); [do 2 eexists; split; [reflexivity|]; simpl; lia|].
      destruct (IH buf Hb Hs) as [_ IHi].
      destruct (IHi (S (Z.to_nat r)) 0) as (e' & l' & Ei & Hi); try lia.
      rewrite Ei; cbn [bind].
      destruct (Z.ltb_spec e' 0); [do 2 eexists; split; [reflexivity|]; simpl; lia|].
      apply FIN; lia.
    + rewrite land_80 by auto.
      destruct (Z.ltb_spec bl 128); cbn [negb].
      * unfold is_byte in Hbl. apply FIN; lia.
      * rewrite land_7F.
        destruct (Nat.ltb_spec 4 (Z.to_nat (bl mod 128))); [do 2 eexists; split; [reflexivity|]; simpl; lia|].
        set (count := Z.to_nat (bl mod 128)) in *.
        destruct (Nat.ltb_spec (length buf) (S (Z.to_nat r) + count));
          [do 2 eexists; split; [reflexivity|]; simpl; lia|].
        set (off := S (Z.to_nat r)) in *.
        set (ls := firstn count (skipn off buf)).
        assert (Hll : length ls = count) by (subst ls; rewrite firstn_length, skipn_length; lia).
        assert (Hlb : bytes ls) by (apply bytes_firstn, bytes_skipn; auto).
        pose proof (be_range ls Hlb) as HR.
        assert (256 ^ Zlen ls <= 4294967296).
        { change 4294967296 with (256 ^ 4). apply Z.pow_le_mono_r; unfold Zlen; lia. }
        pose proof (len_loop_run count (firstn off buf) ls (skipn count (skipn off buf)) 0) as L.
        subst ls. rewrite !firstn_skipn in L.
        rewrite (firstn_length_le buf) in L by lia.
        rewrite L by (auto; lia). cbn [bind].
        apply FIN; lia.
  - intros off l Hl Ho Hf. cbn [ber_indef_f].
    rewrite sub_rest by lia. cbn [bind].
    set (rest := skipn (off + Z.to_nat l) buf).
    assert (Hrl : length rest = (length buf - (off + Z.to_nat l))%nat)
      by (subst rest; now rewrite skipn_length).
    destruct (IH rest) as [IHd _].
    { subst rest; now apply bytes_skipn. }
    { unfold small, Zlen in *; lia. }
    destruct IHd as (r & t & Er & Hok); [lia|]. rewrite Er; cbn [bind].
    destruct (Z.ltb_spec r 0); [do 2 eexists; split; [reflexivity|]; lia|].
    destruct (Z.eqb_spec r 0); [do 2 eexists; split; [reflexivity|]; lia|].
    destruct t as [t|]; cbn [ber_ok] in Hok; [|lia].
    destruct (b_tag t =? 0); [do 2 eexists; split; [reflexivity|]; lia|].
    destruct Hok as (Hlen & Hoff & Hr & Hr2 & Hv).
    unfold small, Zlen in *. rewrite u32_id by lia.
    destruct (IH buf Hb Hs) as [_ IHi].
    destruct (IHi off (l + r)) as (e & l' & Ei & Hi); try lia.
    rewrite Ei. do 2 eexists; split; [reflexivity|]. lia.
Qed.

Lemma ber_decode_fuel fuel buf : bytes buf -> small buf -> (length buf < fuel)%nat ->
  ber_decode_f fuel buf = ber_decode buf.
Proof.
  intros Hb Hs Hf. unfold ber_decode.
  destruct (ber_total (S (length buf)) buf Hb Hs) as [T _].
  destruct T as (r & t & E & _); [lia|].
  destruct (ber_fuel_mono (S (length buf)) fuel buf) as [M _]; [lia|].
  apply fle_eq in M; [exact M|congruence].
Qed.

Lemma ber_decode_safe buf : bytes buf -> small buf ->
  exists r t, ber_decode buf = Ret (r, t) /\ ber_ok buf r t.
Proof. intros Hb Hs. apply (ber_total (S (length buf)) buf Hb Hs). lia. Qed.

(** ** Completeness *)
Lemma length_octets_bytes lf n : length_octets lf n -> bytes lf.
Proof.
  destruct 1 as [n Hn|ls Hls Hc].
  - constructor; [unfold is_byte; lia|constructor].
  - constructor; auto. unfold is_byte, Zlen; lia.
Qed.

Lemma class_bits_range b : is_byte b -> 0 <= class_bits b.
Proof. unfold is_byte, class_bits; lia. Qed.

(** The length octet case analysis is shared by soundness and completeness, so
    the final step is named. *)
Definition ber_finish (buf : list Z) (tag b0 : Z) (offset : nat) (l : Z) : out (Z * option ber_tlv) :=
  if Zlen buf <? Z.of_nat offset + l then Ret (-11, None)
  else let* v := sub buf offset (Z.to_nat l) in
       Ret (to_int (Z.of_nat offset + l),
            Some (mkBer tag l offset v (Z.land b0 (Z.lor 0xC0 0x20)))).

Lemma ber_finish_ok buf tag b0 pre v rest offset l :
  buf = pre ++ v ++ rest -> offset = length pre -> l = Zlen v -> small buf -> is_byte b0 ->
  ber_finish buf tag b0 offset l =
  Ret (Zlen (pre ++ v), Some (mkBer tag l offset v (class_bits b0))).
Proof.
  intros -> -> -> Hs Hb0. unfold ber_finish. unfold small, Zlen in *.
  rewrite !app_length in Hs.
  destruct (Z.ltb_spec (Z.of_nat (length (pre ++ v ++ rest)))
     (Z.of_nat (length pre) + Z.of_nat (length v))) as [Hx|Hx].
  { rewrite !app_length in Hx; lia. }
  rewrite Nat2Z.id, sub_app by auto. cbn [bind].
  rewrite land_E0 by auto. rewrite to_int_id by lia. rewrite app_length.
  do 3 f_equal. lia.
Qed.

Lemma ber_decode_complete id lf v rest : identifier id -> length_octets lf (Zlen v) ->
  bytes v -> small (id ++ lf ++ v ++ rest) ->
  ber_decode (id ++ lf ++ v ++ rest) =
    Ret (Zlen (id ++ lf ++ v),
         Some (mkBer (be id) (Zlen v) (length id + length lf) v (class_bits (hd 0 id)))).
Proof.
  intros Hid Hlf Hv Hs. unfold ber_decode.
  set (buf := id ++ lf ++ v ++ rest) in *.
  pose proof (identifier_length id Hid) as Hidl.
  assert (Hlfl : (1 <= length lf)%nat) by (destruct Hlf; cbn [length]; lia).
  assert (Hbl : length buf = (length id + length lf + length v + length rest)%nat)
    by (subst buf; rewrite !app_length; lia).
  cbn [ber_decode_f].
  destruct (Nat.eqb_spec (length buf) 0); [lia|].
  destruct (Nat.ltb_spec (length buf) 2); [lia|].
  subst buf. rewrite tag_decode_complete by auto. cbn [bind].
  set (buf := id ++ lf ++ v ++ rest) in *.
  destruct (Z.leb_spec (Zlen id) 0); [unfold Zlen in *; lia|].
  replace (Z.to_nat (Zlen id)) with (length id) by (unfold Zlen; lia).
  destruct (Nat.leb_spec (length buf) (length id)); [lia|].
  assert (Hne : exists b0 id', id = b0 :: id')
    by (destruct id; [cbn [length] in Hidl; lia|eauto]).
  destruct Hne as (b0 & id' & Eid).
  assert (R0 : rd buf 0 = Ret b0) by (subst buf; rewrite Eid; reflexivity).
  rewrite R0. cbn [bind].
  assert (Hb0 : is_byte b0).
  { pose proof (identifier_bytes id Hid) as B. rewrite Eid in B. inversion B; auto. }
  replace (hd 0 id) with b0 by (rewrite Eid; reflexivity).
  remember (Zlen v) as lv eqn:Elv. destruct Hlf as [m Hn|ls Hls Hc].
  - assert (RL : rd buf (length id) = Ret m) by (apply rd_app_mid; auto).
    rewrite RL. cbn [bind].
    assert (Hnb : is_byte m) by (unfold is_byte; lia).
    destruct (Z.eqb_spec m 128); [lia|].
    rewrite land_80 by auto. destruct (Z.ltb_spec m 128); [|lia]. cbn [negb].
    fold (ber_finish buf (be id) b0 (S (length id)) m).
    rewrite (ber_finish_ok buf (be id) b0 (id ++ [m]) v rest); auto.
    + rewrite <- app_assoc. do 4 f_equal. cbn [length]; lia.
    + subst buf. rewrite <- app_assoc. reflexivity.
    + rewrite app_length; cbn [length]; lia.
  - assert (RL : rd buf (length id) = Ret (128 + Zlen ls)) by (apply rd_app_mid; auto).
    rewrite RL. cbn [bind].
    assert (Hnb : is_byte (128 + Zlen ls)) by (unfold is_byte, Zlen; lia).
    destruct (Z.eqb_spec (128 + Zlen ls) 128); [unfold Zlen in *; lia|].
    rewrite land_80 by auto. destruct (Z.ltb_spec (128 + Zlen ls) 128); [unfold Zlen in *; lia|].
    cbn [negb].
    replace (Z.to_nat (Z.land (128 + Zlen ls) 127)) with (length ls)
      by (rewrite land_7F; unfold Zlen; lia).
    destruct (Nat.ltb_spec 4 (length ls)); [lia|].
    cbn [length] in Hbl.
    destruct (Nat.ltb_spec (length buf) (S (length id) + length ls)); [lia|].
    pose proof (be_range ls Hls) as HR.
    assert (256 ^ Zlen ls <= 4294967296).
    { change 4294967296 with (256 ^ 4). apply Z.pow_le_mono_r; unfold Zlen; lia. }
    pose proof (len_loop_run (length ls) (id ++ [128 + Zlen ls]) ls (v ++ rest) 0) as L.
    rewrite app_length in L; cbn [length] in L.
    rewrite <- app_assoc in L. cbn [app] in L.
    rewrite Nat.add_1_r in L.
    subst buf. cbn [app]. rewrite L by (auto; lia). cbn [bind].
    rewrite Z.mul_0_l, Z.add_0_l.
    cbn [app] in Hs.
    set (buf := id ++ 128 + Zlen ls :: ls ++ v ++ rest) in *.
    fold (ber_finish buf (be id) b0 (S (length id) + length ls)%nat (be ls)).
    rewrite (ber_finish_ok buf (be id) b0 (id ++ (128 + Zlen ls) :: ls) v rest); auto.
    + rewrite <- app_assoc. do 4 f_equal. cbn [length]; lia.
    + subst buf. rewrite <- app_assoc. reflexivity.
    + rewrite app_length; cbn [length]; lia.
Qed.

(** ** Soundness *)
Lemma ber_finish_inv buf tag b0 off l r t : is_byte b0 -> small buf -> 0 <= l ->
  ber_finish buf tag b0 off l = Ret (r, Some t) ->
  r = Z.of_nat off + l /\ r <= Zlen buf /\
  t = mkBer tag l off (firstn (Z.to_nat l) (skipn off buf)) (class_bits b0) /\
  Zlen (b_val t) = l.
Proof.
  intros Hb0 Hs Hl E. unfold ber_finish in E. unfold small in Hs.
  destruct (Z.ltb_spec (Zlen buf) (Z.of_nat off + l)); [discriminate|].
  apply bind_Ret_inv in E. destruct E as (v & Ev & E).
  pose proof (sub_length _ _ _ _ Ev) as Hvl.
  apply sub_inv in Ev. destruct Ev as [Hle Ev].
  injection E as Er Et. rewrite to_int_id in Er by lia.
  rewrite land_E0 in Et by auto. subst r t v. cbn [b_val]. unfold Zlen in *.
  repeat split; auto; lia.
Qed.

Lemma ber_decode_unfold_sound fuel buf r t : bytes buf -> small buf ->
  ber_decode_f (S fuel) buf = Ret (r, Some t) ->
  exists id tl, buf = id ++ tl /\ identifier id /\ b_tag t = be id /\
    b_flags t = class_bits (hd 0 id) /\
    ((exists lf rest, tl = lf ++ b_val t ++ rest /\ length_octets lf (b_len t) /\
        b_len t = Zlen (b_val t) /\ r = Zlen id + Zlen lf + b_len t /\
        b_off t = (length id + length lf)%nat)
     \/ (exists rest l, tl = 128 :: rest /\ constructed (hd 0 id) /\
          ber_indef_f fuel buf (S (length id)) 0 = Ret (0, l) /\
          t = mkBer (be id) l (S (length id)) (firstn (Z.to_nat l) rest) (class_bits (hd 0 id)) /\
          r = Zlen id + 1 + l)).
Proof.
  intros Hb Hs E. cbn [ber_decode_f] in E.
  destruct (Nat.eqb_spec (length buf) 0); [discriminate|].
  destruct (Nat.ltb_spec (length buf) 2); [discriminate|].
  apply bind_Ret_inv in E. destruct E as ([rt tag] & Et & E).
  destruct (Z.leb_spec rt 0); [discriminate|].
  destruct (Nat.leb_spec (length buf) (Z.to_nat rt)); [discriminate|].
  destruct (tag_decode_sound buf rt tag Hb Et) as (id & tl & Ebuf & Hid & Htag & Hrt); [lia|].
  apply bind_Ret_inv in E. destruct E as (b0 & Eb0 & E).
  apply bind_Ret_inv in E. destruct E as (bl & Ebl & E).
  assert (Hb0 : is_byte b0) by (eapply rd_byte; eauto).
  assert (Hbl : is_byte bl) by (eapply rd_byte; eauto).
  replace (Z.to_nat rt) with (length id) in * by (unfold Zlen in Hrt; lia).
  pose proof (identifier_length id Hid) as Hidl.
  assert (Hhd : hd 0 id = b0).
  { destruct id; [simpl in Hidl; lia|]. rewrite Ebuf in Eb0. inversion Eb0; reflexivity. }
  assert (Htl : tl = bl :: skipn (S (length id)) buf).
  { pose proof (skipn_rd _ _ _ Ebl) as S1. rewrite Ebuf in S1 at 1.
    rewrite skipn_length_app in S1. exact S1. }
  exists id, tl. split; [auto|]. split; [auto|].
  destruct (Z.eqb_spec bl 128).
  - rewrite land_20 in E by auto.
    destruct (Z.eqb_spec ((b0 / 32) mod 2) 0); [discriminate|].
    apply bind_Ret_inv in E. destruct E as ([e' l] & Ei & E).
    destruct (Z.ltb_spec e' 0); [discriminate|].
    fold (ber_finish buf tag b0 (S (length id)) l) in E.
    assert (Hpre : 0 <= l /\ e' = 0).
    { pose proof (ber_fuel_mono fuel (fuel + length buf + 2) buf) as M.
      destruct M as [_ M]; [lia|]. specialize (M (S (length id)) 0).
      rewrite Ei in M. apply fle_eq in M; [|congruence].
      destruct (ber_total (fuel + length buf + 2) buf Hb Hs) as [_ T2].
      destruct (T2 (S (length id)) 0) as (e2 & l2 & Ee2 & HH2); try lia.
      assert (e2 = e' /\ l2 = l) by (split; congruence). lia. }
    destruct Hpre as [Hpre ->].
    apply ber_finish_inv in E; auto. destruct E as (Er & Hr & Et' & Hv).
    subst t. cbn [b_tag b_flags b_len b_val b_off] in *.
    split; [auto|]. split; [congruence|]. right.
    exists (skipn (S (length id)) buf), l. split; [congruence|].
    split; [unfold constructed; rewrite Hhd; lia|].
    split; [auto|]. split; [congruence|]. unfold Zlen in *; lia.
  - rewrite land_80 in E by auto.
    destruct (Z.ltb_spec bl 128); cbn [negb] in E.
    + fold (ber_finish buf tag b0 (S (length id)) bl) in E.
      unfold is_byte in Hbl.
      apply ber_finish_inv in E; auto; try lia. destruct E as (Er & Hr & Et' & Hv).
      subst t. cbn [b_tag b_flags b_len b_val b_off] in *.
      split; [auto|]. split; [congruence|]. left.
      exists [bl], (skipn (S (length id) + Z.to_nat bl) buf).
      split; [|split; [constructor; lia|]].
      * rewrite Htl. cbn [app]. f_equal.
        rewrite <- skipn_skipn', firstn_skipn. reflexivity.
      * split; [auto|]. split; [unfold Zlen in *; cbn [length]; lia|]. cbn [length]; lia.
    + rewrite land_7F in E.
      set (count := Z.to_nat (bl mod 128)) in *.
      destruct (Nat.ltb_spec 4 count); [discriminate|].
      destruct (Nat.ltb_spec (length buf) (S (length id) + count)); [discriminate|].
      apply bind_Ret_inv in E. destruct E as (l & El & E).
      fold (ber_finish buf tag b0 (S (length id) + count)%nat l) in E.
      set (off := S (length id)) in *.
      set (ls := firstn count (skipn off buf)) in *.
      assert (Hll : length ls = count) by (subst ls; rewrite firstn_length, skipn_length; lia).
      assert (Hlb : bytes ls) by (subst ls; auto).
      pose proof (be_range ls Hlb) as HR.
      assert (256 ^ Zlen ls <= 4294967296).
      { change 4294967296 with (256 ^ 4). apply Z.pow_le_mono_r; unfold Zlen; lia. }
      pose proof (len_loop_run count (firstn off buf) ls (skipn count (skipn off buf)) 0) as L.
      replace (firstn off buf ++ ls ++ skipn count (skipn off buf)) with buf in L
        by (subst ls; now rewrite !firstn_skipn).
      rewrite (firstn_length_le buf) in L by lia.
      rewrite L in El by (auto; lia). injection El as El.
      apply ber_finish_inv in E; auto; try lia. destruct E as (Er & Hr & Et' & Hv).
      subst t. cbn [b_tag b_flags b_len b_val b_off] in *.
      split; [auto|]. split; [congruence|]. left.
      exists (bl :: ls), (skipn (off + count + Z.to_nat l) buf).
      split; [|split].
      * rewrite Htl. cbn [app]. f_equal. fold off.
        rewrite <- (skipn_skipn' (Z.to_nat l)), firstn_skipn.
        rewrite <- skipn_skipn'. subst ls. now rewrite firstn_skipn.
      * subst l. replace bl with (128 + Zlen ls).
        -- constructor; auto. unfold is_byte in Hbl. lia.
        -- unfold Zlen. unfold is_byte in Hbl. lia.
      * split; [auto|]. split; [unfold Zlen in *; cbn [length]; lia|]. cbn [length]; lia.
Qed.

Lemma ber_decode_sound buf r t : bytes buf -> small buf ->
  ber_decode buf = Ret (r, Some t) ->
  exists id tl, buf = id ++ tl /\ identifier id /\ b_tag t = be id /\
    b_flags t = class_bits (hd 0 id) /\
    ((exists lf rest, tl = lf ++ b_val t ++ rest /\ length_octets lf (b_len t) /\
        b_len t = Zlen (b_val t) /\ r = Zlen id + Zlen lf + b_len t /\
        b_off t = (length id + length lf)%nat)
     \/ (exists rest, tl = 128 :: rest)).
Proof.
  intros Hb Hs E. apply ber_decode_unfold_sound in E; auto.
  destruct E as (id & tl & H1 & H2 & H3 & H4 & [H5|H5]); exists id, tl; repeat (split; auto).
  right. destruct H5 as (rest & l & H5 & _). eauto.
Qed.

(** ** Iteration *)
Lemma skipn_small {A} n (l : list A) : small l -> small (skipn n l).
Proof. unfold small, Zlen. rewrite skipn_length. lia. Qed.

(** One step of the iterator. *)
Lemma itr_next_step itr : bytes itr -> small itr ->
  exists r t, ber_decode itr = Ret (r, t) /\ ber_ok itr r t /\
    ber_itr_next itr = Ret (r, t, skipn (Z.to_nat r) itr).
Proof.
  intros Hb Hs. destruct (ber_decode_safe itr Hb Hs) as (r & t & E & Hok).
  exists r, t. split; [auto|]. split; [auto|]. unfold ber_itr_next. rewrite E; cbn [bind].
  destruct (Z.ltb_spec 0 r).
  - destruct t as [t|]; cbn [ber_ok] in Hok; [|lia].
    unfold Zlen in Hok. rewrite sub_rest by lia. reflexivity.
  - replace (Z.to_nat r) with O by lia. reflexivity.
Qed.

Lemma itr_all_total fuel : forall buf, bytes buf -> small buf -> (length buf < fuel)%nat ->
  exists ts e, ber_itr_all fuel buf = Ret (ts, e) /\ e <= 0.
Proof.
  induction fuel as [|f IH]; intros buf Hb Hs Hf; [lia|].
  cbn [ber_itr_all].
  destruct (itr_next_step buf Hb Hs) as (r & t & E & Hok & En). rewrite En; cbn [bind].
  destruct (Z.leb_spec r 0); [do 2 eexists; split; [reflexivity|]; lia|].
  destruct t as [t|]; cbn [ber_ok] in Hok; [|lia].
  destruct (IH (skipn (Z.to_nat r) buf)) as (ts & e & Ei & He); auto using skipn_small.
  { rewrite skipn_length. lia. }
  rewrite Ei; cbn [bind]. eauto.
Qed.

(** The pieces visited by iteration. *)
Definition piece (p : list Z) (t : ber_tlv) : Prop :=
  encodes p (b_tag t) (b_flags t) (b_val t) /\ b_len t = Zlen (b_val t) \/
  exists id, p = id ++ 128 :: b_val t /\ identifier id /\ constructed (hd 0 id) /\
    b_tag t = be id /\ b_flags t = class_bits (hd 0 id) /\ b_len t = Zlen (b_val t).

Lemma decode_piece buf r t : bytes buf -> small buf -> ber_decode buf = Ret (r, Some t) ->
  piece (firstn (Z.to_nat r) buf) t /\ (2 <= Z.to_nat r <= length buf)%nat.
Proof.
  intros Hb Hs E. destruct (ber_decode_safe buf Hb Hs) as (r' & t' & E' & Hok).
  rewrite E in E'. injection E' as <- <-. cbn [ber_ok] in Hok.
  split; [|unfold Zlen in *; lia].
  unfold ber_decode in E. apply ber_decode_unfold_sound in E; auto.
  destruct E as (id & tl & H1 & H2 & H3 & H4 & [H5|H5]).
  - destruct H5 as (lf & rest & -> & Hlf & Hl & Hr & Ho). left. split; [|auto].
    split.
    + assert (bytes (b_val t)); [|auto].
      destruct Hok as (_ & _ & _ & _ & ->). auto.
    + exists id, lf. split; [|split; [auto|split; [auto|split; [congruence|auto]]]].
      rewrite H1. replace (id ++ lf ++ b_val t ++ rest) with ((id ++ lf ++ b_val t) ++ rest)
        by (now rewrite <- !app_assoc).
      apply firstn_app_eq. rewrite !app_length. lia.
  - destruct H5 as (rest & l & -> & Hc & _ & -> & Hr).
    cbn [b_tag b_flags b_len b_val b_off] in *. right. exists id.
    assert (Hll : (Z.to_nat l <= length rest)%nat).
    { rewrite H1 in Hok.
      unfold Zlen in *. rewrite app_length in Hok; cbn [length] in Hok. lia. }
    repeat split; auto.
    + rewrite H1. rewrite <- (firstn_skipn (Z.to_nat l) rest) at 1.
      replace (id ++ 128 :: firstn (Z.to_nat l) rest ++ skipn (Z.to_nat l) rest)
        with ((id ++ 128 :: firstn (Z.to_nat l) rest) ++ skipn (Z.to_nat l) rest)
        by (now rewrite <- app_assoc).
      apply firstn_app_eq. rewrite app_length; cbn [length b_val].
      rewrite firstn_length_le by lia. unfold Zlen in *; lia.
    + cbn [b_val b_len]; unfold Zlen. rewrite firstn_length_le by lia. lia.
Qed.

Lemma decode_err_nonempty r buf t : bytes buf -> small buf -> ber_decode buf = Ret (r, t) ->
  (r = 0 <-> buf = []).
Proof.
  intros Hb Hs E. split; intros H.
  - subst r. destruct buf as [|b buf]; auto.
    exfalso. unfold ber_decode in E. cbn [length] in E.
    cbn [ber_decode_f length Nat.eqb] in E.
    destruct (Nat.ltb_spec (S (length buf)) 2); [discriminate|].
    apply bind_Ret_inv in E. destruct E as ([rt tag] & Et & E).
    destruct (Z.leb_spec rt 0) as [Hle|Hle].
    + injection E as -> _. unfold ber_tag_decode in Et. cbn [length Nat.eqb] in Et.
      unfold rd in Et; cbn [nth_error bind] in Et.
      destruct (Z.land b 31 =? 31); [|discriminate].
      assert (NZ : forall f bb off tg tt, (0 < off)%nat -> ber_tag_loop f bb off tg <> Ret (0, tt)).
      { clear. induction f as [|f IH]; intros bb off tg tt Ho; [discriminate|].
        cbn [ber_tag_loop]. destruct (length bb <=? off)%nat; [discriminate|].
        destruct (rd bb off) as [x| |] eqn:Ex; cbn [bind]; try discriminate.
        destruct (Z.land x 128 =? 0); [intros HH; injection HH; lia|].
        destruct (4 <=? S off)%nat; [discriminate|]. apply IH; lia. }
      apply NZ in Et; auto.
    + assert (D : ber_decode (b :: buf) = Ret (0, t)).
      { unfold ber_decode. cbn [length ber_decode_f Nat.eqb].
        destruct (Nat.ltb_spec (S (length buf)) 2); [lia|].
        rewrite Et; cbn [bind]. destruct (Z.leb_spec rt 0); [lia|]. exact E. }
      destruct t as [t|].
      * destruct (ber_decode_safe (b :: buf) Hb Hs) as (r' & t' & E' & Hok).
        rewrite D in E'. injection E' as <- <-. cbn [ber_ok] in Hok. lia.
      * clear D. destruct (length (b :: buf) <=? Z.to_nat rt)%nat eqn:Q;
          cbn [length] in Q; rewrite Q in E; [discriminate|].
        repeat match goal with
        | H : bind _ _ = Ret _ |- _ => apply bind_Ret_inv in H; destruct H as (? & ? & H)
        | H : (if ?c then _ else _) = Ret _ |- _ => destruct c eqn:?; try discriminate
        | H : (let (_, _) := ?c in _) = Ret _ |- _ => destruct c
        end; try discriminate.
        injection E as E. lia.
  - subst buf. cbn in E. congruence.
Qed.

Lemma itr_all_pieces fuel : forall buf ts e, bytes buf -> small buf ->
  ber_itr_all fuel buf = Ret (ts, e) ->
  exists ps rest, buf = concat ps ++ rest /\ Forall2 piece ps ts /\ e <= 0 /\
    (e = 0 <-> rest = []) /\ ber_decode rest = Ret (e, None) /\
    Forall (fun p => (2 <= length p)%nat) ps.
Proof.
  induction fuel as [|f IH]; intros buf ts e Hb Hs E; [discriminate|].
  cbn [ber_itr_all] in E.
  destruct (itr_next_step buf Hb Hs) as (r & t & Ed & Hok & En).
  rewrite En in E; cbn [bind] in E.
  destruct (Z.leb_spec r 0).
  - injection E as <- <-. exists [], buf. cbn [concat app].
    split; [auto|]. split; [constructor|]. split; [auto|]. split; [|split; [|constructor]].
    + eapply decode_err_nonempty in Ed; auto.
    + destruct t as [t|]; cbn [ber_ok] in Hok; [lia|]. exact Ed.
  - destruct t as [t|]; cbn [ber_ok] in Hok; [|lia].
    apply bind_Ret_inv in E. destruct E as ([ts' e'] & Ei & E). injection E as <- <-.
    apply IH in Ei; auto using skipn_small.
    destruct Ei as (ps & rest & E1 & E2 & E3 & E4 & E5 & E6).
    destruct (decode_piece buf r t Hb Hs Ed) as [Hp Hlen].
    exists (firstn (Z.to_nat r) buf :: ps), rest.
    split; [cbn [concat]; rewrite <- app_assoc, <- E1; symmetry; apply firstn_skipn|].
    split; [constructor; auto|]. split; [auto|]. split; [auto|]. split; [auto|].
    constructor; auto. rewrite firstn_length_le; lia.
Qed.

Lemma encodes_bytes enc tag fl v : encodes enc tag fl v -> bytes enc.
Proof.
  intros [Hv (id & lf & -> & Hid & _ & Hlf & _)].
  apply identifier_bytes in Hid. apply length_octets_bytes in Hlf. auto.
Qed.
Lemma encodes_length enc tag fl v : encodes enc tag fl v -> (2 <= length enc)%nat.
Proof.
  intros [Hv (id & lf & -> & Hid & _ & Hlf & _)].
  apply identifier_length in Hid. rewrite !app_length.
  assert (1 <= length lf)%nat by (destruct Hlf; cbn [length]; lia). lia.
Qed.

Lemma ber_decode_encodes enc tag fl v rest : encodes enc tag fl v -> small (enc ++ rest) ->
  exists off, ber_decode (enc ++ rest) = Ret (Zlen enc, Some (mkBer tag (Zlen v) off v fl)) /\
    off = (length enc - length v)%nat.
Proof.
  intros [Hv (id & lf & -> & Hid & -> & Hlf & ->)] Hs.
  exists (length id + length lf)%nat. split.
  - rewrite <- !app_assoc in *. rewrite ber_decode_complete; auto.
  - rewrite !app_length. lia.
Qed.

(** What iteration reports of an object. *)
Definition obj (t : ber_tlv) : Z * Z * list Z * Z := (b_tag t, b_len t, b_val t, b_flags t).

Lemma itr_all_encodes : forall encs objs fuel,
  Forall2 (fun e o => let '(tag, l, v, fl) := o in encodes e tag fl v /\ l = Zlen v) encs objs ->
  small (concat encs) -> (length (concat encs) < fuel)%nat ->
  exists ts, ber_itr_all fuel (concat encs) = Ret (ts, 0) /\ map obj ts = objs.
Proof.
  induction encs as [|e encs IH]; intros objs fuel H Hs Hf.
  - inversion H; subst. exists []. split; [|reflexivity].
    destruct fuel; [cbn [concat length] in Hf; lia|]. reflexivity.
  - inversion H as [|? [[[tag l] v] fl] ? objs' [He Hl] H']; subst. cbn [concat] in *.
    destruct fuel as [|f]; [lia|]. cbn [ber_itr_all].
    assert (Hbb : bytes (e ++ concat encs)).
    { apply bytes_app_intro; [eapply encodes_bytes; eauto|].
      clear - H'. induction H' as [|? [[[? ?] ?] ?] ? ? [He _] _ IH]; cbn [concat]; auto.
      apply bytes_app_intro; auto. eapply encodes_bytes; eauto. }
    destruct (ber_decode_encodes e tag fl v (concat encs) He Hs) as (off & Ed & Hoff).
    destruct (itr_next_step _ Hbb Hs) as (r & t & Ed' & _ & En).
    rewrite Ed in Ed'. injection Ed' as <- <-. rewrite En; cbn [bind].
    pose proof (encodes_length _ _ _ _ He) as Hel.
    destruct (Z.leb_spec (Zlen e) 0); [unfold Zlen in *; lia|].
    rewrite skipn_app_eq by (unfold Zlen; lia).
    destruct (IH objs' f) as (ts & Ei & Em); auto.
    + unfold small, Zlen in *. rewrite app_length in Hs. lia.
    + rewrite app_length in Hf. lia.
    + rewrite Ei; cbn [bind]. eexists; split; [reflexivity|]. cbn [map obj b_tag b_len b_val b_flags].
      unfold obj at 1; cbn. now rewrite Em.
Qed.

(** ** Indefinite length with definite contents *)
Lemma indef_run : forall encs objs pre eoc rest fuel acc,
  Forall2 (fun e o => let '(tag, v, fl) := o in encodes e tag fl v /\ tag <> 0) encs objs ->
  eoc = [0; 0] ->
  bytes pre -> bytes rest ->
  small (pre ++ acc ++ concat encs ++ eoc ++ rest) ->
  bytes acc ->
  (length (concat encs ++ eoc ++ rest) + 1 < fuel)%nat ->
  ber_indef_f fuel (pre ++ acc ++ concat encs ++ eoc ++ rest) (length pre) (Zlen acc) =
   Ret (0, Zlen (acc ++ concat encs)).
Proof.
  induction encs as [|e encs IH]; intros objs pre eoc rest fuel acc H -> Hbp Hbr Hs Hba Hf;
    destruct fuel as [|f]; try lia; cbn [ber_indef_f].
  - cbn [concat app] in *. rewrite app_nil_r.
    replace (length pre + Z.to_nat (Zlen acc))%nat with (length (pre ++ acc))
      by (rewrite app_length; unfold Zlen; lia).
    rewrite app_assoc. rewrite sub_rest by (rewrite (app_length (pre ++ acc)); lia).
    rewrite skipn_length_app. cbn [bind].
    rewrite app_assoc in Hs.
    assert (Hs2 : small (0 :: 0 :: rest)).
    { unfold small, Zlen in *. rewrite app_length in Hs. lia. }
    assert (Hz : encodes [0; 0] 0 0 []).
    { split; [auto|]. exists [0], [0]. repeat split; auto.
      - constructor; [unfold is_byte; lia|]. cbn. lia.
      - apply (len_short 0). lia. }
    destruct (ber_decode_encodes [0; 0] 0 0 [] rest Hz Hs2) as (off & Ed & _).
    assert (Hzb : is_byte 0) by (unfold is_byte; lia).
    rewrite ber_decode_fuel; auto; [|cbn [length] in *; lia].
    cbn [app] in Ed. rewrite Ed; cbn [bind]. reflexivity.
  - inversion H as [|? [[tag v] fl] ? objs' [He Htag] H']; subst. cbn [concat] in *.
    replace (length pre + Z.to_nat (Zlen acc))%nat with (length (pre ++ acc))
      by (rewrite app_length; unfold Zlen; lia).
    rewrite (app_assoc pre acc).
    rewrite sub_rest by (rewrite (app_length (pre ++ acc)); lia).
    rewrite skipn_length_app. cbn [bind]. rewrite <- !app_assoc in *.
    assert (Hs2 : small (e ++ concat encs ++ [0; 0] ++ rest)).
    { unfold small, Zlen in *. rewrite !app_length in *. lia. }
    destruct (ber_decode_encodes e tag fl v _ He Hs2) as (off & Ed & _).
    assert (Hbe : bytes (concat encs)).
    { clear - H'. induction H' as [|? [[? ?] ?] ? ? [He _] _ IH]; cbn [concat]; auto.
      apply bytes_app_intro; auto. eapply encodes_bytes; eauto. }
    pose proof (encodes_bytes _ _ _ _ He) as Heb.
    pose proof (encodes_length _ _ _ _ He) as Hel.
    assert (Hz2 : bytes [0; 0]) by (repeat apply bytes_cons; auto; unfold is_byte; lia).
    rewrite ber_decode_fuel; auto; [|rewrite !app_length in *; cbn [length] in *; lia].
    rewrite Ed; cbn [bind].
    destruct (Z.ltb_spec (Zlen e) 0); [unfold Zlen in *; lia|].
    destruct (Z.eqb_spec (Zlen e) 0); [unfold Zlen in *; lia|].
    cbn [b_tag]. destruct (Z.eqb_spec tag 0); [lia|].
    replace (u32 (Zlen acc + Zlen e)) with (Zlen (acc ++ e)).
    + pose proof (IH objs' pre [0; 0] rest f (acc ++ e) H' eq_refl Hbp Hbr) as I.
      rewrite <- !app_assoc in I. apply I; auto.
      rewrite !app_length in *; cbn [length] in *; lia.
    + unfold small, Zlen in *. rewrite !app_length in *. rewrite u32_id; lia.
Qed.

Lemma ber_decode_indef id encs objs rest : identifier id -> constructed (hd 0 id) ->
  Forall2 (fun e o => let '(tag, v, fl) := o in encodes e tag fl v /\ tag <> 0) encs objs ->
  bytes rest -> small (id ++ [128] ++ concat encs ++ [0; 0] ++ rest) ->
  ber_decode (id ++ [128] ++ concat encs ++ [0; 0] ++ rest) =
   Ret (Zlen (id ++ [128] ++ concat encs),
        Some (mkBer (be id) (Zlen (concat encs)) (length id + 1) (concat encs)
                (class_bits (hd 0 id)))).
Proof.
  intros Hid Hc He Hbr Hs. unfold ber_decode.
  set (buf := id ++ [128] ++ concat encs ++ [0; 0] ++ rest) in *.
  pose proof (identifier_length id Hid) as Hidl.
  assert (Hbl : length buf = (length id + length (concat encs) + length rest + 3)%nat)
    by (subst buf; rewrite !app_length; cbn [length]; lia).
  cbn [ber_decode_f].
  destruct (Nat.eqb_spec (length buf) 0); [lia|].
  destruct (Nat.ltb_spec (length buf) 2); [lia|].
  subst buf. rewrite tag_decode_complete by auto. cbn [bind].
  set (buf := id ++ [128] ++ concat encs ++ [0; 0] ++ rest) in *.
  destruct (Z.leb_spec (Zlen id) 0); [unfold Zlen in *; lia|].
  replace (Z.to_nat (Zlen id)) with (length id) by (unfold Zlen; lia).
  destruct (Nat.leb_spec (length buf) (length id)); [lia|].
  assert (Hne : exists b0 id', id = b0 :: id')
    by (destruct id; [cbn [length] in Hidl; lia|eauto]).
  destruct Hne as (b0 & id' & Eid).
  assert (R0 : rd buf 0 = Ret b0) by (subst buf; rewrite Eid; reflexivity).
  rewrite R0. cbn [bind].
  assert (Hb0 : is_byte b0).
  { pose proof (identifier_bytes id Hid) as B. rewrite Eid in B. inversion B; auto. }
  replace (hd 0 id) with b0 in * by (rewrite Eid; reflexivity).
  assert (RL : rd buf (length id) = Ret 128) by (apply rd_app_mid; auto).
  rewrite RL. cbn [bind Z.eqb Pos.eqb].
  rewrite land_20 by auto. unfold constructed in Hc. rewrite Hc. cbn [Z.eqb].
  pose proof (indef_run encs objs (id ++ [128]) [0; 0] rest (length buf) [] He eq_refl) as I.
  rewrite (app_length id) in I. cbn [length app] in I.
  replace (length id + 1)%nat with (S (length id)) in I by lia.
  rewrite <- app_assoc in I. change (Zlen (A:=Z) []) with 0 in I.
  subst buf. cbn [app] in *. rewrite I; auto.
  - cbn [bind Z.ltb Z.compare].
    set (buf := id ++ 128 :: concat encs ++ 0 :: 0 :: rest) in *.
    fold (ber_finish buf (be id) b0 (S (length id)) (Zlen (concat encs))).
    rewrite (ber_finish_ok buf (be id) b0 (id ++ [128]) (concat encs) (0 :: 0 :: rest)); auto.
    + rewrite <- app_assoc. do 4 f_equal. lia.
    + subst buf. rewrite <- app_assoc. reflexivity.
    + rewrite app_length; cbn [length]; lia.
  - apply bytes_app_intro; [apply identifier_bytes; auto|]. apply bytes_one; unfold is_byte; lia.
  - rewrite !app_length in *. cbn [length] in *. rewrite !app_length in *. cbn [length] in *. lia.
Qed.

(** ** Object identifiers *)
Lemma subid_shift_in a b : 0 <= a < 33554432 -> is_byte b ->
  Z.lor (u32 (Z.shiftl a 7)) (Z.land b 127) = a * 128 + b mod 128.
Proof.
  intros Ha Hb. rewrite land_7F.
  rewrite u32_id; [|rewrite Z.shiftl_mul_pow2 by lia; lia].
  rewrite lor_shiftl by lia. reflexivity.
Qed.

Lemma be128_acc l a :
  fold_left (fun a b => a * 128 + b mod 128) l a = a * 128 ^ Zlen l + be128 l.
Proof.
  unfold be128, Zlen. revert a; induction l as [|b l IH]; intros a; cbn [fold_left length].
  - simpl Z.of_nat. rewrite Z.pow_0_r. lia.
  - rewrite (IH (a * 128 + b mod 128)), (IH (0 * 128 + b mod 128)).
    rewrite Nat2Z.inj_succ, Z.pow_succ_r by lia. lia.
Qed.
Lemma be128_cons b l : be128 (b :: l) = (b mod 128) * 128 ^ Zlen l + be128 l.
Proof. unfold be128 at 1; cbn [fold_left]. rewrite be128_acc. lia. Qed.
Lemma be128_nonneg l : 0 <= be128 l.
Proof.
  induction l as [|b l IH]; [unfold be128; simpl; lia|].
  rewrite be128_cons. assert (0 <= 128 ^ Zlen l) by (apply Z.pow_nonneg; lia). nia.
Qed.

Lemma oid_subid_run more : forall last rest acc,
  Forall (fun b => 128 <= b < 256) more -> 0 <= last < 128 -> 0 <= acc ->
  acc * 128 ^ Zlen (more ++ [last]) + be128 (more ++ [last]) < 4294967296 ->
  oid_subid (more ++ last :: rest) acc =
    (acc * 128 ^ Zlen (more ++ [last]) + be128 (more ++ [last]), rest).
Proof.
  induction more as [|b more IH]; intros last rest acc Hm Hl Ha Hr; cbn [app oid_subid].
  - assert (Hlb : is_byte last) by (unfold is_byte; lia).
    rewrite land_80 by auto. destruct (Z.ltb_spec last 128); [|lia].
    cbn [app] in *. unfold Zlen, be128 in *; cbn [length fold_left] in *.
    change (Z.of_nat 1) with 1 in *. rewrite Z.pow_1_r in *.
    rewrite subid_shift_in by (auto; lia). reflexivity.
  - inversion Hm as [|? ? Hb Hm']; subst.
    assert (Hbb : is_byte b) by (unfold is_byte; lia).
    rewrite land_80 by auto. destruct (Z.ltb_spec b 128); [lia|].
    cbn [app] in Hr. rewrite be128_cons in Hr. 
    pose proof (be128_nonneg (more ++ [last])) as HN.
    assert (HP : 128 <= 128 ^ Zlen (more ++ [last])).
    { change 128 with (128 ^ 1) at 1. apply Z.pow_le_mono_r; [lia|].
      unfold Zlen; rewrite app_length; cbn [length]; lia. }
    assert (Hsucc : 128 ^ Zlen (b :: more ++ [last]) = 128 * 128 ^ Zlen (more ++ [last])).
    { unfold Zlen; cbn [length]. rewrite Nat2Z.inj_succ, Z.pow_succ_r by lia. reflexivity. }
    rewrite Hsucc in Hr.
    assert (Hacc : 0 <= acc < 33554432) by nia.
    rewrite subid_shift_in by auto.
    rewrite IH; auto.
    + rewrite be128_cons, Hsucc. f_equal. ring.
    + lia.
    + nia.
Qed.

Lemma oid_loop_run : forall encs vs fuel o pre,
  Forall2 (fun e v => subidentifier e v /\ v < 4294967296) encs vs ->
  (length (concat encs) < fuel)%nat ->
  o_value o = pre ++ repeat 0 (10 - length pre) -> o_length o = length pre ->
  (length pre + length vs <= 10)%nat ->
  oid_loop fuel (concat encs) o =
    Ret (mkOid ((pre ++ vs) ++ repeat 0 (10 - length (pre ++ vs))) (length (pre ++ vs))).
Proof.
  induction encs as [|e encs IH]; intros vs fuel o pre H Hf Hv Hl Hn.
  - inversion H; subst. destruct fuel; [lia|]. cbn [concat oid_loop].
    rewrite app_nil_r. destruct o; cbn in *; subst; reflexivity.
  - inversion H as [|? v ? vs' [(more & last & -> & Hm & Hlast & Hv') Hv32] H']; subst.
    cbn [concat length] in *.
    destruct fuel as [|f]; [lia|].
    cbn [oid_loop].
    destruct ((more ++ [last]) ++ concat encs) as [|b0 l0] eqn:Q.
    { destruct more; discriminate Q. }
    rewrite <- Q in *. clear Q b0 l0.
    destruct (Nat.ltb_spec (o_length o) 40); [|lia].
    rewrite <- app_assoc. cbn [app].
    rewrite oid_subid_run by (auto; lia).
    rewrite Z.mul_0_l, Z.add_0_l.
    rewrite Hv. replace (10 - length pre)%nat with (S (10 - length (pre ++ [0])))
      by (rewrite app_length; cbn [length]; lia).
    cbn [repeat]. rewrite wr_app by auto. cbn [bind].
    rewrite (IH vs' f _ (pre ++ [be128 (more ++ [last])])); auto.
    + rewrite <- !app_assoc. reflexivity.
    + rewrite !app_length in Hf; cbn [length] in Hf. lia.
    + cbn [o_value]. rewrite <- app_assoc. cbn [app]. rewrite !app_length. reflexivity.
    + cbn [o_length]. rewrite app_length; cbn [length]; lia.
    + rewrite app_length; cbn [length]; lia.
Qed.

(** How many components the loop stores. *)
Lemma oid_subid_count b buf acc : bytes (b :: buf) ->
  exists v rest, oid_subid (b :: buf) acc = (v, rest) /\
    (length rest <= length buf)%nat /\ bytes rest /\
    subid_count (b :: buf) = S (subid_count rest).
Proof.
  revert b acc; induction buf as [|c buf IH]; intros b acc Hb.
  - inversion Hb; subst. cbn [oid_subid]. rewrite land_80 by auto.
    do 2 eexists. split; [destruct (b <? 128); reflexivity|].
    repeat split; auto.
    unfold subid_count. cbn [filter last length]. destruct (b <? 128); reflexivity.
  - inversion Hb as [|? ? Hbb Hbc]; subst.
    cbn [oid_subid]. rewrite land_80 by auto. fold oid_subid.
    destruct (Z.ltb_spec b 128).
    + do 2 eexists. split; [reflexivity|]. repeat split; auto.
      unfold subid_count. cbn [filter]. destruct (Z.ltb_spec b 128); [|lia].
      cbn [length]. change (last (b :: c :: buf) 0) with (last (c :: buf) 0). lia.
    + destruct (IH c (Z.lor (u32 (Z.shiftl acc 7)) (Z.land b 127)) Hbc)
        as (v & rest & E & Hl & Hr & Hc).
      exists v, rest. split; [exact E|]. split; [cbn [length]; lia|]. split; [auto|].
      rewrite <- Hc. unfold subid_count. cbn [filter].
      destruct (Z.ltb_spec b 128); [lia|]. reflexivity.
Qed.

Lemma oid_loop_safe : forall fuel buf o, bytes buf -> (length buf < fuel)%nat ->
  length (o_value o) = 10%nat -> (o_length o + length buf < 42)%nat -> (o_length o <= 10)%nat ->
  (if Nat.leb (o_length o + subid_count buf) 10
   then exists o', oid_loop fuel buf o = Ret o' /\ length (o_value o') = 10%nat /\
          o_length o' = (o_length o + subid_count buf)%nat
   else oid_loop fuel buf o = UB).
Proof.
  induction fuel as [|f IH]; intros buf o Hb Hf Hv Hl H10; [lia|].
  destruct buf as [|b buf].
  - change (subid_count []) with O. destruct (Nat.leb_spec (o_length o + 0) 10); [|lia].
    exists o. cbn [oid_loop]. repeat split; auto.
  - cbn [oid_loop].
    destruct (oid_subid_count b buf 0 Hb) as (v & rest & E & Hrl & Hrb & Hc).
    rewrite E, Hc. destruct (Nat.ltb_spec (o_length o) 40); [|lia].
    cbn [length] in *.
    destruct (Nat.ltb_spec (o_length o) 10) as [Hlt|Hge].
    + rewrite wr_Ret by lia. cbn [bind].
      specialize (IH rest (mkOid (upd (o_value o) (o_length o) v) (S (o_length o)))).
      cbn [o_value o_length] in IH. rewrite upd_length in IH.
      rewrite <- Nat.add_succ_comm. apply IH; auto; lia.
    + destruct (Nat.leb_spec (o_length o + S (subid_count rest)) 10); [lia|].
      assert (W : wr (o_value o) (o_length o) v = UB) by (apply wr_UB; lia).
      now rewrite W.
Qed.

Lemma oid_decode_safe buf : bytes buf ->
  if Nat.leb 1 (length buf) && Nat.ltb (length buf) 40 && Nat.ltb 8 (subid_count (tl buf))
  then oid_decode buf = UB
  else exists r o, oid_decode buf = Ret (r, o) /\ (o_length o <= 10)%nat /\
         length (o_value o) = 10%nat /\
         (r = 0 -> o_length o = (2 + subid_count (tl buf))%nat).
Proof.
  intros Hb. unfold oid_decode. destruct buf as [|b0 rest].
  { do 2 eexists; split; [reflexivity|]. cbn; repeat split; auto; lia. }
  cbn [tl]. destruct (Nat.leb_spec 40 (length (b0 :: rest))) as [H40|H40].
  { destruct (Nat.ltb_spec (length (b0 :: rest)) 40); [lia|]. rewrite andb_false_r. cbn [andb].
    do 2 eexists; split; [reflexivity|]. cbn; repeat split; auto; lia. }
  destruct (Nat.ltb_spec (length (b0 :: rest)) 40); [|lia].
  cbn [length Nat.leb andb].
  destruct (if b0 <? 40 then (0, b0) else if b0 <? 80 then (1, b0 - 40) else (2, b0 - 80))
    as [v0 v1].
  change (wr (repeat 0 10) 0 v0) with (Ret (v0 :: repeat 0 9)). cbn [bind].
  change (wr (v0 :: repeat 0 9) 1 v1) with (Ret (v0 :: v1 :: repeat 0 8)). cbn [bind].
  pose proof (oid_loop_safe (S (length rest)) rest (mkOid (v0 :: v1 :: repeat 0 8) 2)) as L.
  cbn [o_length o_value] in L.
  assert (Hbr : bytes rest) by (inversion Hb; auto).
  specialize (L Hbr ltac:(lia) eq_refl).
  cbn [length] in *. specialize (L ltac:(lia) ltac:(lia)).
  destruct (Nat.leb_spec (2 + subid_count rest) 10); destruct (Nat.ltb_spec 8 (subid_count rest)); try lia.
  - destruct L as (o' & E & Ho1 & Ho2). rewrite E; cbn [bind].
    do 2 eexists; split; [reflexivity|]. cbn [o_length] in Ho2. repeat split; auto; lia.
  - rewrite L. reflexivity.
Qed.

(** ** Statements in the form of the properties *)
Lemma ber_decode_sound_ret buf r t : bytes buf -> small buf ->
  ber_decode buf = Ret (r, t) -> 0 < r ->
  exists o, t = Some o /\
  exists id tl, buf = id ++ tl /\ identifier id /\ b_tag o = be id /\
    b_flags o = class_bits (hd 0 id) /\
    ((exists lf rest, tl = lf ++ b_val o ++ rest /\ length_octets lf (b_len o) /\
        b_len o = Zlen (b_val o) /\ r = Zlen id + Zlen lf + b_len o /\
        b_off o = (length id + length lf)%nat)
     \/ (exists rest, tl = 128 :: rest)).
Proof.
  intros Hb Hs E Hr. destruct (ber_decode_safe buf Hb Hs) as (r' & t' & E' & Hok).
  rewrite E in E'. injection E' as <- <-.
  destruct t as [o|]; cbn [ber_ok] in Hok; [|lia].
  exists o. split; [auto|]. now apply ber_decode_sound.
Qed.

Lemma ber_decode_encodes_eq enc tag fl v rest : encodes enc tag fl v -> small (enc ++ rest) ->
  ber_decode (enc ++ rest) =
    Ret (Zlen enc, Some (mkBer tag (Zlen v) (length enc - length v) v fl)).
Proof.
  intros H Hs. destruct (ber_decode_encodes enc tag fl v rest H Hs) as (off & E & ->). exact E.
Qed.

Lemma ber_memory_safe buf : bytes buf -> small buf ->
  (exists r tag, ber_tag_decode buf = Ret (r, tag) /\ r <= Zlen buf) /\
  (exists r t, ber_decode buf = Ret (r, t) /\ r <= Zlen buf /\
     (0 < r <-> t <> None) /\
     forall o, t = Some o ->
       0 <= b_len o /\ Z.of_nat (b_off o) + b_len o = r /\
       b_val o = firstn (Z.to_nat (b_len o)) (skipn (b_off o) buf)) /\
  (forall fuel, (length buf < fuel)%nat -> ber_decode_f fuel buf = ber_decode buf).
Proof.
  intros Hb Hs. split; [|split].
  - destruct (tag_decode_total buf Hb) as (r & t & E & H). exists r, t. split; auto. lia.
  - destruct (ber_decode_safe buf Hb Hs) as (r & t & E & Hok). exists r, t.
    split; [auto|]. destruct t as [o|]; cbn [ber_ok] in Hok.
    + split; [lia|]. split; [split; [discriminate|lia]|]. intros o' Ho. injection Ho as <-.
      intuition lia.
    + split; [lia|]. split; [split; [lia|congruence]|]. discriminate.
  - intros fuel Hf. now apply ber_decode_fuel.
Qed.

Lemma itr_all_any buf : bytes buf -> small buf ->
  exists ts e ps rest, ber_itr_all (S (length buf)) (ber_itr_init buf) = Ret (ts, e) /\
    buf = concat ps ++ rest /\ e <= 0 /\ (e = 0 <-> rest = []) /\
    ber_decode rest = Ret (e, None) /\ Forall (fun p => (2 <= length p)%nat) ps /\
    Forall2 (fun p t =>
      encodes p (b_tag t) (b_flags t) (b_val t) /\ b_len t = Zlen (b_val t) \/
      exists id, p = id ++ 128 :: b_val t /\ identifier id /\ constructed (hd 0 id) /\
        b_tag t = be id /\ b_flags t = class_bits (hd 0 id) /\ b_len t = Zlen (b_val t)) ps ts.
Proof.
  intros Hb Hs. destruct (itr_all_total (S (length buf)) buf Hb Hs) as (ts & e & E & He); [lia|].
  destruct (itr_all_pieces _ _ _ _ Hb Hs E) as (ps & rest & H1 & H2 & H3 & H4 & H5 & H6).
  exists ts, e, ps, rest. repeat (split; [assumption|]). exact H2.
Qed.

Lemma oid_decode_run b0 a1 a2 encs vs :
  0 <= b0 < 128 -> 0 <= a1 <= 2 -> 0 <= a2 -> (a1 < 2 -> a2 < 40) -> b0 = 40 * a1 + a2 ->
  Forall2 (fun e v => subidentifier e v /\ v < 4294967296) encs vs ->
  (length (concat encs) < 39)%nat -> (length vs <= 8)%nat ->
  oid_decode (b0 :: concat encs) =
    Ret (0, mkOid ((a1 :: a2 :: vs) ++ repeat 0 (8 - length vs)) (2 + length vs)).
Proof.
  intros Hb0 H1 H2 H3 Eb0 Hf Hl Hn. unfold oid_decode.
  destruct (Nat.leb_spec 40 (length (b0 :: concat encs))) as [Hx|Hx]; [cbn [length] in Hx; lia|].
  replace (if b0 <? 40 then (0, b0) else if b0 <? 80 then (1, b0 - 40) else (2, b0 - 80))
    with (a1, a2).
  2: { destruct (Z.ltb_spec b0 40); [f_equal; lia|].
       destruct (Z.ltb_spec b0 80); f_equal; lia. }
  change (wr (repeat 0 10) 0 a1) with (Ret (a1 :: repeat 0 9)). cbn [bind].
  change (wr (a1 :: repeat 0 9) 1 a2) with (Ret (a1 :: a2 :: repeat 0 8)). cbn [bind].
  rewrite (oid_loop_run encs vs _ _ [a1; a2]); auto. cbn [length]; lia.
Qed.
