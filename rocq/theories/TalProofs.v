(** Proofs for src/emv_tal.c. *)
From Verif Require Import Base BaseLemmas BerModel BerSpec BerProofs TlvListModel TlvModel TlvSpec TlvProofs DolModel DolProofs
  TtlModel TtlSpec TtlProofs FieldsModel FieldsSpec FieldsProofs AppModel AppSpec AppProofs TalModel TalSpec.

(** ** The transport of the library *)
Lemma put_bytes b off d b' : put b off d = Ret b' -> bytes b -> bytes d -> bytes b'.
Proof.
  unfold put. intros E B D. destruct (_ <=? _)%nat; [|discriminate]. injection E as <-.
  repeat apply bytes_app_intro; auto using bytes_firstn, bytes_skipn.
Qed.
Lemma sub_bytes b off n d : sub b off n = Ret d -> bytes b -> bytes d.
Proof. intros E B. apply sub_inv in E as (_ & ->). auto. Qed.
Definition iter_bytes {S} (i : titer S) : Prop :=
  match i with Again v => bytes (t_r v) /\ 0 <= t_sw v < 65536 | Done t => bytes (o_buf t) end.
Lemma copy_bytes {S} md cs (v : tvars S) ins rx c : trx_copy md cs v ins rx = Ret c -> bytes (t_r v) -> bytes rx ->
  match c with inl v' => bytes (t_r v') | inr _ => True end.
Proof.
  unfold trx_copy. intros E B R. destruct md.
  - destruct (2 <? Zlen rx); [|injection E as <-; auto]. destruct (negb _); [injection E as <-; exact I|].
    destruct (_ <? _); [injection E as <-; exact I|].
    apply bind_Ret_inv in E as (d & E1 & E). apply bind_Ret_inv in E as (r & E2 & E). injection E as <-.
    cbn [t_r]. eapply put_bytes; eauto. eapply sub_bytes; eauto.
  - destruct (3 <? Zlen rx); [|injection E as <-; auto]. destruct (negb _); [injection E as <-; exact I|].
    apply bind_Ret_inv in E as (b0 & E0 & E). destruct (negb _); [injection E as <-; exact I|].
    destruct (_ <? _); [injection E as <-; exact I|].
    apply bind_Ret_inv in E as (d & E1 & E). apply bind_Ret_inv in E as (r & E2 & E). injection E as <-.
    cbn [t_r]. eapply put_bytes; eauto. eapply sub_bytes; eauto.
Qed.
Lemma sw_bytes sw : 0 <= sw < 65536 -> bytes [Z.shiftr sw 8; Z.land sw 0xFF].
Proof.
  intro H. rewrite Z.shiftr_div_pow2 by lia. change 255 with (Z.ones 8). rewrite Z.land_ones by lia.
  change (2 ^ 8) with 256. repeat constructor; unfold is_byte; try (apply Z.mod_pos_bound; lia).
  - apply Z.div_pos; lia.
  - apply Z.div_lt_upper_bound; lia.
Qed.
Lemma step_bytes {S} (card : cardfn S) md mem clen cs v i : (forall s tx, bytes (snd (snd (card s tx)))) ->
  trx_step card md mem clen cs v = Ret i -> bytes (t_r v) -> 0 <= t_sw v < 65536 -> iter_bytes i.
Proof.
  intros Hb E B W. unfold trx_step in E. apply bind_Ret_inv in E as (tx & _ & E).
  pose proof (Hb (t_card v) tx) as Hrx. destruct (card (t_card v) tx) as [s [r rx]]. cbn [snd] in Hrx.
  destruct (Nat.ltb _ _); [discriminate|].
  destruct (negb (r =? 0)); [injection E as <-; exact B|].
  destruct (Nat.eqb _ 0); [injection E as <-; exact B|].
  apply bind_Ret_inv in E as (insl & _ & E).
  apply bind_Ret_inv in E as (sw1 & E1 & E). apply bind_Ret_inv in E as (sw2 & E2 & E).
  assert (S1 : is_byte sw1) by (destruct (Nat.ltb 1 (length rx)); eapply rd_byte; eauto).
  assert (S2 : is_byte sw2) by (destruct (Nat.ltb 1 (length rx)); [eapply rd_byte; eauto|injection E2 as <-; unfold is_byte; lia]).
  destruct (cs =? CASE_1).
  { destruct (negb _); [injection E as <-; exact B|].
    apply bind_Ret_inv in E as (r' & E3 & E). injection E as <-. cbn [iter_bytes o_buf]. eapply put_bytes; eauto. }
  destruct (Nat.eqb _ 1).
  { unfold trx_procedure in E.
    assert (F : forall code j, (let* r' := put (t_r v) 0 [sw1] in Ret (Done (mkR code r' 1 (t_sw v) s))) = Ret j -> iter_bytes j).
    { intros code j E3. apply bind_Ret_inv in E3 as (r' & E3 & E4). injection E4 as <-. cbn [iter_bytes o_buf]. eapply put_bytes; eauto. }
    destruct (_ =? 0x60); [eapply F; eauto|].
    destruct (_ =? hd 0 insl).
    { destruct (t_data v); [|eapply F; eauto]. apply bind_Ret_inv in E as (h4 & _ & E). injection E as <-. split; auto. }
    destruct (_ =? Z.lxor _ _); [|eapply F; eauto].
    destruct (t_data v); [|eapply F; eauto]. injection E as <-. split; auto. }
  match type of E with context [match ?st with inl _ => _ | inr _ => _ end] => set (st0 := st) in E end.
  assert (Hst : match st0 with inl (_, _, sw) => 0 <= sw < 65536 | inr _ => True end).
  { unfold st0. unfold is_byte in *. destruct (sw1 =? 0x61); [destruct (negb _); auto|].
    destruct (sw1 =? 0x6C); [destruct (negb _); auto|]. destruct (t_sw v =? 0); auto. lia. }
  destruct st0 as [[[gr ul] sw]|code]; [|injection E as <-; exact B].
  apply bind_Ret_inv in E as (c & E3 & E). apply copy_bytes in E3; auto.
  destruct c as [v'|code]; [|injection E as <-; exact B].
  destruct gr; [injection E as <-; split; auto|].
  destruct ul.
  - apply bind_Ret_inv in E as (h & _ & E). injection E as <-. split; auto.
  - apply bind_Ret_inv in E as (r1 & E4 & E). injection E as <-. cbn [iter_bytes o_buf].
    eapply put_bytes; eauto. now apply sw_bytes.
Qed.
Lemma loop_bytes {S} (card : cardfn S) md mem clen cs fuel : (forall s tx, bytes (snd (snd (card s tx)))) ->
  forall v t, trx_loop card md mem clen cs fuel v = Ret t -> bytes (t_r v) -> 0 <= t_sw v < 65536 -> bytes (o_buf t).
Proof.
  intro Hb. induction fuel as [|fuel IH]; intros v t E B W; [discriminate|]. cbn [trx_loop] in E.
  apply bind_Ret_inv in E as (i & E1 & E). apply step_bytes in E1; auto.
  destruct i as [v'|r]; cbn [iter_bytes] in E1.
  - apply IH in E; tauto.
  - injection E as <-. exact E1.
Qed.
Lemma trx_bytes {S} (card : cardfn S) md fuel s cmd tail r sw0 t : (forall s tx, bytes (snd (snd (card s tx)))) ->
  ttl_trx fuel card md s cmd tail r sw0 = Ret t -> bytes r -> bytes (o_buf t).
Proof.
  intros Hb E B. unfold ttl_trx in E. destruct (_ || _)%bool; [injection E as <-; exact B|].
  apply bind_Ret_inv in E as (cs & _ & E). destruct (negb _); [injection E as <-; exact B|].
  destruct md.
  - eapply loop_bytes in E; eauto. cbn. lia.
  - apply bind_Ret_inv in E as (h & _ & E). eapply loop_bytes in E; eauto. cbn. lia.
Qed.

Lemma zeros_bytes n : bytes (repeat 0 n).
Proof. induction n; constructor; auto. unfold is_byte; lia. Qed.
(** A command with an output buffer of 256 octets. *)
Lemma finish_good {S} (card : cardfn S) fuel md s cmd tail e4 e5 :
  respects_buffer card -> (forall s tx, bytes (snd (snd (card s tx)))) -> bytes cmd -> bytes tail ->
  (md = ModeApdu \/ (length cmd <= 5)%nat \/ (255 <= length tail)%nat) ->
  e4 <> 0 -> e5 <> 0 ->
  good_answer (of_tres (let* t := ttl_trx fuel card md s cmd tail (repeat 0 RAPDU_MAX) 0 in
    ttl_finish e4 e5 t (repeat 0 (Z.to_nat RAPDU_DATA_MAX)))).
Proof.
  intros Rb Hb Bc Bt Hm N4 N5.
  pose proof (trx_safe fuel card md s cmd tail (repeat 0 RAPDU_MAX) 0 Rb Hb Bc Bt ltac:(rewrite repeat_length; unfold RAPDU_MAX; lia) Hm) as Sf.
  destruct (ttl_trx _ _ _ _ _ _ _ _) as [t| |] eqn:E; [|contradiction|exact I].
  apply trx_bytes in E; auto using zeros_bytes. cbn [bind]. unfold safe in Sf. rewrite repeat_length in Sf.
  unfold Zlen at 1 in Sf. rewrite repeat_length in Sf. change (Z.of_nat RAPDU_MAX) with 258 in Sf.
  destruct Sf as [Sl Sn]. set (outb := repeat 0 (Z.to_nat RAPDU_DATA_MAX)).
  assert (Lo : length outb = 256%nat) by reflexivity. assert (Bo : bytes outb) by apply zeros_bytes.
  assert (Fail : forall r sw, r <> 0 -> good_answer (of_tres (Ret (mkR r outb (Zlen outb) sw (o_card t))))).
  { intros r sw Hr. unfold of_tres. cbn [bind o_ret o_buf]. destruct (Z.eqb_spec r 0); [contradiction|].
    rewrite sub_Ret by lia. cbn [bind good_answer n_ret]. contradiction. }
  unfold ttl_finish. destruct (Z.eqb_spec (o_ret t) 0) as [R0|R0]; cbn [negb]; [|auto].
  destruct (Z.ltb_spec (o_len t) 2); [auto|]. unfold Zlen at 1. rewrite Lo.
  destruct (Z.ltb_spec (Z.of_nat 256) (o_len t - 2)); [auto|].
  rewrite sub_Ret by (rewrite Sl; unfold RAPDU_MAX; lia). cbn [bind skipn].
  assert (Ld : length (firstn (Z.to_nat (o_len t - 2)) (o_buf t)) = Z.to_nat (o_len t - 2))
    by (rewrite firstn_length_le; [reflexivity|rewrite Sl; unfold RAPDU_MAX; lia]).
  rewrite put_Ret by (rewrite Ld; lia). cbn [bind]. unfold of_tres. cbn [bind o_ret o_buf o_len].
  change (0 =? 0) with true. cbv iota. cbn [firstn app].
  rewrite sub_Ret by (rewrite app_length, Ld; lia). cbn [bind good_answer n_ret n_data skipn]. intros _.
  split.
  - apply bytes_firstn. apply bytes_app_intro; auto.
  - unfold Zlen. rewrite firstn_length. lia.
Qed.
Lemma ttl_transport_wf {S} fuel (card : cardfn S) md junk :
  respects_buffer card -> (forall s tx, bytes (snd (snd (card s tx)))) -> bytes junk ->
  md = ModeApdu \/ (255 <= length junk)%nat ->
  wf_transport (ttl_transport fuel card md junk).
Proof.
  intros Rb Hb Bj Hm.
  assert (Fail : forall r s, r <> 0 -> good_answer (of_tres (Ret (mkR r (repeat 0 (Z.to_nat RAPDU_DATA_MAX)) (Zlen (repeat 0 (Z.to_nat RAPDU_DATA_MAX))) 0 s)) : out (answer S))).
  { intros r s Hr. unfold of_tres. cbn [bind o_ret o_buf]. destruct (Z.eqb_spec r 0); [contradiction|].
    rewrite sub_Ret by lia. cbn [bind good_answer n_ret]. contradiction. }
  assert (U : forall z, is_byte (u8 z)) by (intro z; unfold u8, is_byte; apply Z.mod_pos_bound; lia).
  assert (K : forall z, 0 <= z < 256 -> is_byte z) by auto.
  assert (Sel : forall p2 s name, is_byte p2 -> bytes name -> good_answer (of_tres (ttl_select_gen fuel card md junk p2 s name (repeat 0 (Z.to_nat RAPDU_DATA_MAX)) 0))).
  { intros p2 s name P2 Bn. unfold ttl_select_gen. change (Nat.eqb (length (repeat 0 (Z.to_nat RAPDU_DATA_MAX))) 0) with false.
    change (Zlen (repeat 0 (Z.to_nat RAPDU_DATA_MAX)) <? RAPDU_DATA_MAX) with false. cbv iota.
    destruct (_ || _)%bool; [apply Fail; lia|]. apply finish_good; auto; try lia.
    - apply bytes_app_intro; [repeat (apply bytes_cons; [solve [auto|apply K; lia]|]); constructor|].
      apply bytes_app_intro; auto. apply bytes_cons; [apply K; lia|constructor].
    - tauto. }
  repeat split.
  - intros s name Bn. cbn [x_select ttl_transport]. apply (Sel 0); auto. apply K; lia.
  - intros s name Bn. cbn [x_next ttl_transport]. apply (Sel 2); auto. apply K; lia.
  - intros s sfi rec Bs Br. cbn [x_read ttl_transport]. unfold ttl_read_record.
    change (Nat.eqb (length (repeat 0 (Z.to_nat RAPDU_DATA_MAX))) 0) with false.
    change (Zlen (repeat 0 (Z.to_nat RAPDU_DATA_MAX)) <? RAPDU_DATA_MAX) with false. cbv iota.
    destruct (_ || _)%bool; [apply Fail; lia|]. apply finish_good; auto; try lia.
    repeat (apply bytes_cons; [solve [auto|apply K; lia]|]). constructor.
  - intros s d Bd. cbn [x_gpo ttl_transport]. unfold ttl_gpo.
    change (Nat.eqb (length (repeat 0 (Z.to_nat RAPDU_DATA_MAX))) 0) with false.
    change (Zlen (repeat 0 (Z.to_nat RAPDU_DATA_MAX)) <? RAPDU_DATA_MAX) with false. cbv iota.
    assert (G : forall d, bytes d -> good_answer (of_tres (
      let cmd := [0x80; 0xA8; 0; 0; u8 (Zlen d)] ++ d ++ [0] in
      let* t := ttl_trx fuel card md s cmd junk (repeat 0 RAPDU_MAX) 0 in
      ttl_finish (-5) (-6) t (repeat 0 (Z.to_nat RAPDU_DATA_MAX))))).
    { intros d0 B0. cbv zeta. apply finish_good; auto; try lia; try tauto.
      apply bytes_app_intro; [repeat (apply bytes_cons; [solve [auto|apply K; lia]|]); constructor|].
      apply bytes_app_intro; auto. apply bytes_cons; [apply K; lia|constructor]. }
    destruct d as [d|].
    + destruct (_ || _)%bool eqn:El; [cbn [bind]; apply Fail; lia|].
      destruct (rd_total d 0) as [b Eb]. { unfold Zlen in El. lia. }
      rewrite Eb. cbn [bind]. destruct (negb _); cbn [bind]; [apply Fail; lia|]. apply G; auto.
    + cbn [bind]. apply G. repeat (apply bytes_cons; [apply K; lia|]). constructor.
Qed.

(** ** Records *)
Lemma hd70_id id tl : identifier id -> hd_error (id ++ tl) = Some 0x70 -> id = [0x70].
Proof.
  intros H E. destruct H as [b Hb H|b0 more last Hb0 H31 Hm Hl Hlen]; cbn in E; injection E as ->; [reflexivity|].
  vm_compute in H31. discriminate.
Qed.
Lemma small256 {A} (l : list A) : Zlen l <= 256 -> small l.
Proof. unfold small. lia. Qed.
Lemma parse_one data r t l l' : bytes data -> small data -> hd_error data = Some 0x70 ->
  ber_decode data = Ret (r, Some t) -> Zlen data - r <= 1 -> tlv_parse data l = Ret (0, l') ->
  exists kids, forest false data [Node 0x70 kids] /\ l' = l ++ flat_map leaves kids.
Proof.
  intros B S H7 D Tr E. destruct (decode_piece data r t B S D) as [P Hr].
  unfold tlv_parse in E. cbn [tlv_parse_f] in E. unfold ber_itr_init in E.
  destruct (itr_next_step data B S) as (r' & t' & D' & _ & N). rewrite D in D'. injection D' as <- <-.
  rewrite N in E. cbn [bind] in E. destruct (Z.leb_spec r 0); [lia|].
  assert (Hrest : (length (skipn (Z.to_nat r) data) <= 1)%nat) by (rewrite skipn_length; unfold Zlen in *; lia).
  assert (F : is_byte (b_flags t) /\ (b_flags t / 32) mod 2 = 1 /\ bytes (b_val t) /\ (length (b_val t) < length data)%nat /\
    (forall kids, forest false (b_val t) kids -> forest false (firstn (Z.to_nat r) data) [Node 0x70 kids])).
  { destruct data as [|d0 data]; [discriminate|]. cbn [hd_error] in H7. injection H7 as ->.
    assert (H7 : forall l, firstn (Z.to_nat r) (0x70 :: data) = l -> hd_error l = Some 0x70).
    { intros l0 <-. destruct (Z.to_nat r) eqn:Er; [lia|]. reflexivity. }
    pose proof (firstn_length (Z.to_nat r) (0x70 :: data)) as Lf.
    destruct P as [[En Hl]|(id & Ep & Hid & Hc & Ht & Hf & Hl)].
    - pose proof (encodes_flags _ _ _ _ En) as Fb. pose proof (encodes_vlen _ _ _ _ En) as Lv.
      pose proof En as [Bv (id & lf & Ep & Hid & Ht & _ & Hf)]. specialize (H7 _ Ep). apply hd70_id in H7; auto. subst id.
      split; [auto|]. split; [rewrite Hf; reflexivity|]. split; [auto|]. split; [cbn [length] in *; lia|].
      intros kids Hk. cbn in Ht. rewrite Ht in En. rewrite <- (app_nil_r (firstn _ _)).
      eapply fo_node; eauto; [rewrite Hf; reflexivity|constructor].
    - specialize (H7 _ Ep). apply hd70_id in H7; auto. subst id. cbn [hd] in *.
      split; [rewrite Hf; unfold is_byte, class_bits; cbn; lia|]. split; [rewrite Hf; reflexivity|].
      assert (Bp : bytes (firstn (Z.to_nat r) (0x70 :: data))) by auto.
      split; [rewrite Ep in Bp; inversion Bp as [|? ? _ Bq]; inversion Bq; auto|].
      split. { rewrite Ep in Lf. cbn [length app] in *. lia. }
      intros kids Hk. rewrite Ep. rewrite <- (app_nil_r (b_val t)).
      change 0x70 with (be [0x70]) at 2. apply fo_indef; auto. constructor. }
  destruct F as (Fb & Fc & Bv & Lv & Fo). rewrite flags_constructed in E by auto. rewrite Fc in E. cbn [Z.eqb Pos.eqb] in E.
  destruct (parse_sound (length data) (b_val t) l Bv) as (r1 & add1 & E1 & Hr1 & _ & Ht1);
    [eapply small_le; [exact S|lia]|exact Lv|].
  rewrite E1 in E. cbn [bind] in E. destruct (Z.eqb_spec r1 0) as [->|N1].
  2:{ injection E as -> _. contradiction. }
  destruct (Ht1 eq_refl) as (kids & Hk & ->). exists kids.
  destruct (skipn (Z.to_nat r) data) as [|b [|b' rest]] eqn:Es; [| |cbn [length] in Hrest; lia].
  - destruct data as [|d0 data]; [cbn in Hr; lia|]. cbn [length] in E. cbn [tlv_parse_f] in E. cbn in E. injection E as <-.
    split; auto. rewrite <- (firstn_skipn (Z.to_nat r) (d0 :: data)), Es, app_nil_r. auto.
  - destruct data as [|d0 data]; [cbn in Hr; lia|]. cbn [length] in E. cbn [tlv_parse_f] in E. cbn in E. discriminate.
Qed.

Lemma sfi_record_spec sfi data l : bytes data -> Zlen data <= 256 -> 1 <= sfi <= 30 -> data <> [] ->
  (exists fs oda, sfi_record sfi data l = Ret (0, oda, l ++ fs) /\ record_gives false sfi data fs oda) \/
  (exists r fs, sfi_record sfi data l = Ret (r, false, l ++ fs) /\ Forall (field_of data) fs /\
     ((r = TAL_READ_RECORD_INVALID /\ sfi <= 10 /\ exists b rest, data = b :: rest /\ b <> 0x70) \/
      (hd_error data = Some 0x70 /\ (r = TAL_READ_RECORD_INVALID /\ sfi <= 10 \/ r = TAL_READ_RECORD_PARSE_FAILED) /\
       forall fs oda, record_gives true sfi data fs oda -> (sfi <= 10 -> short_header data) -> False))).
Proof.
  intros B L Hs Hne. pose proof (small256 data L) as S. unfold sfi_record.
  destruct data as [|b rest]; [contradiction|]. change (rd (b :: rest) 0) with (Ret b). cbn [bind].
  destruct (Z.eqb_spec b 0x70) as [->|N7]; cbn [negb].
  2:{ destruct (_ && _)%bool eqn:El.
      - right. exists TAL_READ_RECORD_INVALID, []. rewrite app_nil_r. split; [reflexivity|]. split; [constructor|]. left.
        split; [reflexivity|]. split; [lia|]. eauto.
      - left. exists [], true. rewrite app_nil_r. split; [reflexivity|]. constructor; [lia|auto]. }
  set (data := 0x70 :: rest) in *. assert (H7 : hd_error data = Some 0x70) by reflexivity. clearbody data.
  assert (TT : forall fs oda, record_gives true sfi data fs oda ->
     tlv_parse data l = Ret (0, l ++ fs)).
  { intros fs oda G. destruct G as [data ts _ Fo _|b data' _ Nb]; [now apply parse_forest|cbn in H7; congruence]. }
  destruct (parse_any data l B S) as (r2 & add & E2 & R2 & Fa & Ht2).
  destruct (_ && _)%bool eqn:El.
  - destruct (ber_decode_safe data B S) as (r & t & D & Ok). rewrite D. cbn [bind].
    assert (Bad : (sfi <= 10 -> short_header data -> 0 < r /\ exists t', t = Some t' /\ b_tag t' = 0x70 /\ Zlen data <= b_len t' + 3)).
    { intros _ (flags & v & En & Lv). pose proof (encodes_length _ _ _ _ En) as Le.
      pose proof (ber_decode_encodes_eq data _ _ _ [] En) as D'. rewrite app_nil_r in D'. rewrite D' in D by auto.
      injection D as <- <-. split; [unfold Zlen; lia|]. eexists. split; [reflexivity|]. split; [reflexivity|exact Lv]. }
    assert (FF : forall a, Ret (TAL_READ_RECORD_INVALID, false, l) = a ->
       (sfi <= 10 -> short_header data -> False) ->
       exists r fs, a = Ret (r, false, l ++ fs) /\ Forall (field_of data) fs /\
       ((r = TAL_READ_RECORD_INVALID /\ sfi <= 10 /\ exists b rest, data = b :: rest /\ b <> 0x70) \/
        (hd_error data = Some 0x70 /\ (r = TAL_READ_RECORD_INVALID /\ sfi <= 10 \/ r = TAL_READ_RECORD_PARSE_FAILED) /\
        forall fs oda, record_gives true sfi data fs oda -> (sfi <= 10 -> short_header data) -> False))).
    { intros a <- F. exists TAL_READ_RECORD_INVALID, []. rewrite app_nil_r. split; [reflexivity|]. split; [constructor|]. right.
      split; [auto|]. split; [left; split; [reflexivity|lia]|]. intros fs oda _ K. apply F; [lia|]. apply K; lia. }
    destruct (Z.leb_spec r 0) as [Hr|Hr]; cbn [bind].
    { right. eapply FF; [reflexivity|]. intros K1 K2. destruct (Bad K1 K2). lia. }
    destruct t as [t|]; cbn [ber_ok] in Ok; [|lia]. cbn [bind].
    assert (U : u32 (b_len t + 3) = b_len t + 3) by (apply Z.mod_small; lia). rewrite U.
    destruct (negb (b_tag t =? 0x70) || (b_len t + 3 <? Zlen data))%bool eqn:Eb; cbn [bind].
    { right. eapply FF; [reflexivity|]. intros K1 K2. destruct (Bad K1 K2) as (_ & t' & E' & K3 & K4). injection E' as <-. lia. }
    rewrite E2. cbn [bind]. destruct R2 as [->| ->].
    + left. destruct (parse_one data r t l (l ++ add) B S H7 D ltac:(lia) E2) as (kids & Fo & Ea).
      apply app_inv_head in Ea. subst add. exists (flat_map leaves [Node 0x70 kids]), false.
      split; [cbn [flat_map leaves]; rewrite app_nil_r; reflexivity|]. apply rg_template; eauto.
    + right. exists TAL_READ_RECORD_PARSE_FAILED, add. split; [reflexivity|]. split; [auto|]. right. split; [auto|].
      split; [auto|]. intros fs oda G _. rewrite (TT fs oda G) in E2. discriminate.
  - cbn [bind]. rewrite E2. cbn [bind]. destruct R2 as [->| ->].
    + left. destruct (Ht2 eq_refl) as (ts & Fo & ->). exists (flat_map leaves ts), false. split; [reflexivity|].
      apply rg_template; auto. lia.
    + right. exists TAL_READ_RECORD_PARSE_FAILED, add. split; [reflexivity|]. split; [auto|]. right. split; [auto|].
      split; [auto|]. intros fs oda G _. rewrite (TT fs oda G) in E2. discriminate.
Qed.
Lemma sfi_record_complete sfi data l fs oda : bytes data -> Zlen data <= 256 -> 1 <= sfi <= 30 ->
  record_gives true sfi data fs oda -> (sfi <= 10 -> short_header data) -> sfi_record sfi data l = Ret (0, oda, l ++ fs).
Proof.
  intros B L Hs G Sh. assert (Hne : data <> []) by (destruct G as [data ts H7 _ _|]; [intros ->; discriminate|discriminate]).
  destruct (sfi_record_spec sfi data l B L Hs Hne) as [(fs' & oda' & E & G')|(r & fs' & E & _ & [(_ & K1 & b & rest & K2 & K3)|(_ & _ & K)])].
  - rewrite E. destruct G as [data ts H7 Fo Sg|b data K1 K2].
    + assert (O : oda' = false) by (inversion G'; subst; [reflexivity|cbn in H7; congruence]). subst oda'.
      unfold sfi_record in E. apply bind_Ret_inv in E as (b0 & E0 & E).
      destruct data as [|d0 data]; [discriminate|]. cbn in H7. injection H7 as ->.
      change (rd (0x70 :: data) 0) with (Ret 0x70) in E0. injection E0 as <-. cbn [negb Z.eqb Pos.eqb] in E.
      apply bind_Ret_inv in E as (bad & _ & E). destruct bad; [discriminate|].
      rewrite (parse_forest (0x70 :: data) ts l Fo (small256 _ L)) in E. cbn [bind] in E. injection E as E. now rewrite E.
    + inversion G' as [data' ts H7 _ _|]; subst; [cbn in H7; congruence|reflexivity].
  - exfalso. destruct G as [data ts H7 _ _|]; [subst data; cbn in H7; congruence|lia].
  - exfalso. eapply K; eauto.
Qed.

Lemma reads_app {T} (x : transport T) s r1 d1 s1 r2 d2 s2 : reads x s r1 d1 s1 -> reads x s1 r2 d2 s2 -> reads x s (r1 ++ r2) (d1 ++ d2) s2.
Proof. induction 1; intro HR2; cbn [app]; [exact HR2|]. econstructor; eauto. Qed.
Lemma reads_app_inv {T} (x : transport T) r1 : forall s r2 d s2, reads x s (r1 ++ r2) d s2 ->
  exists d1 d2 s1, d = d1 ++ d2 /\ reads x s r1 d1 s1 /\ reads x s1 r2 d2 s2.
Proof.
  induction r1 as [|[sfi rec] r1 IH]; intros s r2 d s2 H; cbn [app] in H.
  - exists [], d, s. repeat split; auto. constructor.
  - inversion H; subst. match goal with K : reads _ _ (r1 ++ r2) _ _ |- _ => apply IH in K as (d1 & d2 & s1 & -> & K1 & K2) end.
    exists (n_data a :: d1), d2, s1. split; [reflexivity|]. split; [econstructor; eauto|auto].
Qed.
Lemma gives_app d r1 d1 f1 o1 r2 d2 f2 o2 : records_give d r1 d1 f1 o1 -> records_give d r2 d2 f2 o2 ->
  records_give d (r1 ++ r2) (d1 ++ d2) (f1 ++ f2) (o1 || o2).
Proof. induction 1; intro HR2; cbn [app orb]; [exact HR2|]. rewrite <- app_assoc, <- orb_assoc. constructor; auto. Qed.
Lemma gives_app_inv d r1 : forall r2 d1 d2 f o, length d1 = length r1 -> records_give d (r1 ++ r2) (d1 ++ d2) f o ->
  exists f1 o1 f2 o2, f = f1 ++ f2 /\ o = (o1 || o2)%bool /\ records_give d r1 d1 f1 o1 /\ records_give d r2 d2 f2 o2.
Proof.
  induction r1 as [|[sfi rec] r1 IH]; intros r2 d1 d2 f o L H; (destruct d1 as [|da d1]; cbn [length] in L; try lia); cbn [app] in H.
  - exists [], false, f, o. repeat split; auto. constructor.
  - inversion H; subst. match goal with K : records_give _ (r1 ++ r2) _ _ _ |- _ => apply IH in K as (f1 & o1 & f2 & o2 & -> & -> & K1 & K2); [|lia] end.
    exists (fs ++ f1), (oda || o1)%bool, f2, o2. rewrite <- app_assoc, <- orb_assoc. repeat split; auto. constructor; auto.
Qed.
Lemma reads_length {T} (x : transport T) s r d s' : reads x s r d s' -> length d = length r.
Proof. induction 1; cbn [length]; lia. Qed.

Lemma u8_next rec : is_byte (u8 (rec + 1)).
Proof. unfold u8, is_byte. apply Z.mod_pos_bound. lia. Qed.

(** Remaining records of an entry. *)
Definition rest_of (e : afl_entry) (rec : Z) (n : nat) : list (Z * Z) := map (fun i => (a_sfi e, rec + Z.of_nat i)) (seq 0 n).
Lemma rest_of_S e rec n : rest_of e rec (S n) = (a_sfi e, rec) :: rest_of e (rec + 1) n.
Proof.
  unfold rest_of. cbn [seq map]. rewrite Z.add_0_r. f_equal. rewrite <- seq_shift, map_map. apply map_ext. intro i. f_equal. lia.
Qed.
Lemma listed_rest e : listed e = rest_of e (a_first e) (Z.to_nat (a_last e - a_first e + 1)).
Proof. reflexivity. Qed.

(** One record: not UB unless the record is empty. *)
Lemma fails_code {T} sfi (a : answer T) r : record_fails sfi a r -> r < 0.
Proof.
  assert (TAL_TTL_FAILURE < 0 /\ TAL_READ_RECORD_FAILED < 0 /\ TAL_READ_RECORD_INVALID < 0 /\ TAL_READ_RECORD_PARSE_FAILED < 0) by (cbv; auto).
  intros [|? ?|? ?|r' ? ? ? [[-> _]| ->]]; tauto.
Qed.

Section Run.
Context {T : Type} (x : transport T) (W : wf_transport x).
Notation sfi_loop := (sfi_loop x).

Lemma read_good s sfi rec a : is_byte sfi -> is_byte rec -> x_read x s sfi rec = Ret a -> n_ret a = 0 ->
  bytes (n_data a) /\ Zlen (n_data a) <= 256.
Proof. intros Hs Hr E R. destruct W as (_ & _ & Wr & _). specialize (Wr s sfi rec Hs Hr). rewrite E in Wr. auto. Qed.

Lemma sfi_loop_run e : 1 <= a_sfi e <= 30 -> a_last e < 255 -> forall n fuel s rec oda l res,
  1 <= rec -> rec + Z.of_nat n = a_last e + 1 ->
  sfi_loop fuel s e rec oda l = Ret res ->
  exists done todo datas fs oda' s1, rest_of e rec n = done ++ todo /\ reads x s done datas s1 /\ records_give false done datas fs oda' /\
    ((todo = [] /\ res = (if oda || oda' then TAL_ODA_RECORD_INVALID else 0, l ++ fs, s1)) \/
     (exists sfi rec rest a r fs', todo = (sfi, rec) :: rest /\ x_read x s1 sfi rec = Ret a /\ record_fails sfi a r /\
        res = (r, l ++ fs ++ fs', n_st a) /\ Forall (field_of (n_data a)) fs')).
Proof.
  intros Hsfi Hlast. induction n as [|n IH]; intros fuel s rec oda l res Hrec Hn E; (destruct fuel as [|fuel]; [discriminate|]); cbn [TalModel.sfi_loop] in E.
  - destruct (Z.ltb_spec (a_last e) rec); [|lia]. injection E as <-.
    exists [], [], [], [], false, s. split; [reflexivity|]. split; [constructor|]. split; [constructor|]. left. split; [reflexivity|].
    now rewrite orb_false_r, app_nil_r.
  - destruct (Z.ltb_spec (a_last e) rec); [lia|]. rewrite rest_of_S.
    assert (Bs : is_byte (a_sfi e)) by (unfold is_byte; lia). assert (Br : is_byte rec) by (unfold is_byte; lia).
    apply bind_Ret_inv in E as (a & Ea & E). pose proof (read_good s _ _ a Bs Br Ea) as Gd.
    assert (FF : forall r fs', record_fails (a_sfi e) a r -> Forall (field_of (n_data a)) fs' -> res = (r, l ++ fs', n_st a) ->
      exists done todo datas fs oda' s1, (a_sfi e, rec) :: rest_of e (rec + 1) n = done ++ todo /\ reads x s done datas s1 /\ records_give false done datas fs oda' /\
       ((todo = [] /\ res = (if oda || oda' then TAL_ODA_RECORD_INVALID else 0, l ++ fs, s1)) \/
        (exists sfi rec rest a r fs', todo = (sfi, rec) :: rest /\ x_read x s1 sfi rec = Ret a /\ record_fails sfi a r /\
          res = (r, l ++ fs ++ fs', n_st a) /\ Forall (field_of (n_data a)) fs'))).
    { intros r fs' F Ff ->. exists [], ((a_sfi e, rec) :: rest_of e (rec + 1) n), [], [], false, s. split; [reflexivity|]. split; [constructor|]. split; [constructor|].
      right. exists (a_sfi e), rec, (rest_of e (rec + 1) n), a, r, fs'. auto. }
    destruct (Z.eqb_spec (n_ret a) 0) as [R0|R0]; cbn [negb] in E.
    2:{ injection E as <-. apply (FF TAL_TTL_FAILURE []); [now constructor|constructor|now rewrite app_nil_r]. }
    destruct (Z.eqb_spec (n_sw a) 0x9000) as [S0|S0]; cbn [negb] in E.
    2:{ injection E as <-. apply (FF TAL_READ_RECORD_FAILED []); [now constructor|constructor|now rewrite app_nil_r]. }
    destruct (Gd R0) as [Bd Ld].
    destruct (list_eq_dec Z.eq_dec (n_data a) []) as [Ee|Ne]; [rewrite Ee in E; discriminate|].
    destruct (sfi_record_spec (a_sfi e) (n_data a) l Bd Ld ltac:(lia) Ne) as [(fs & o & Er & G)|(r & fs & Er & Ff & C)]; rewrite Er in E; cbn [bind] in E.
    + change (negb (0 =? 0)) with false in E. cbv iota in E.
      rewrite (u8_id (rec + 1)) in E by (unfold is_byte; lia).
      apply IH in E; [|lia|lia]. destruct E as (done & todo & datas & fs1 & oda' & s1 & E1 & E2 & E3 & E4).
      exists ((a_sfi e, rec) :: done), todo, (n_data a :: datas), (fs ++ fs1), (o || oda')%bool, s1.
      split; [cbn [app]; now rewrite E1|]. split; [econstructor; eauto|]. split; [constructor; auto|].
      rewrite orb_assoc. destruct E4 as [(E4 & E5)|(sfi & rec' & rest & a' & r & fs' & E4 & E5 & E6 & E7 & E8)].
      * left. split; [auto|]. now rewrite app_assoc.
      * right. exists sfi, rec', rest, a', r, fs'. split; [auto|]. split; [auto|]. split; [auto|]. split; [|auto].
        rewrite E7. now rewrite <- !app_assoc.
    + assert (Rf : record_fails (a_sfi e) a r).
      { destruct C as [(-> & C1 & b & rest & C2 & C3)|(C1 & C2 & C3)]; [eapply rf_first; eauto|now apply rf_format]. }
      pose proof (fails_code _ _ _ Rf). destruct (Z.eqb_spec r 0); [lia|]. cbn [negb] in E. injection E as <-. apply (FF r fs); auto.
Qed.
(** An entry that ends with record 255 never succeeds. *)
Lemma sfi_loop_255 e : 1 <= a_sfi e <= 30 -> a_last e = 255 -> forall fuel s rec oda l r l' s', is_byte rec ->
  sfi_loop fuel s e rec oda l = Ret (r, l', s') -> r < 0.
Proof.
  intros Hsfi Hl. induction fuel as [|fuel IH]; intros s rec oda l r l' s' Br E; [discriminate|]. cbn [TalModel.sfi_loop] in E.
  destruct (Z.ltb_spec (a_last e) rec); [unfold is_byte in Br; lia|].
  assert (Bs : is_byte (a_sfi e)) by (unfold is_byte; lia).
  apply bind_Ret_inv in E as (a & Ea & E). pose proof (read_good s _ _ a Bs Br Ea) as Gd.
  destruct (Z.eqb_spec (n_ret a) 0) as [R0|R0]; cbn [negb] in E; [|inversion E; cbv; auto].
  destruct (Z.eqb_spec (n_sw a) 0x9000) as [S0|S0]; cbn [negb] in E; [|inversion E; cbv; auto].
  destruct (Gd R0) as [Bd Ld].
  destruct (list_eq_dec Z.eq_dec (n_data a) []) as [Ee|Ne]; [rewrite Ee in E; discriminate|].
  destruct (sfi_record_spec (a_sfi e) (n_data a) l Bd Ld ltac:(lia) Ne) as [(fs & o & Er & G)|(r' & fs & Er & Ff & C)]; rewrite Er in E; cbn [bind] in E.
  - change (negb (0 =? 0)) with false in E. cbv iota in E. apply IH in E; auto using u8_next.
  - assert (Rf : record_fails (a_sfi e) a r').
    { destruct C as [(-> & C1 & b & rest & C2 & C3)|(C1 & C2 & C3)]; [eapply rf_first; eauto|now apply rf_format]. }
    pose proof (fails_code _ _ _ Rf). destruct (Z.eqb_spec r' 0); [lia|]. cbn [negb] in E. injection E as <- _ _. lia.
Qed.
Lemma sfi_loop_complete e : 1 <= a_sfi e <= 30 -> a_last e < 255 -> forall n fuel s rec oda l datas fs oda' s',
  1 <= rec -> rec + Z.of_nat n = a_last e + 1 -> (n < fuel)%nat ->
  reads x s (rest_of e rec n) datas s' -> records_give true (rest_of e rec n) datas fs oda' ->
  (a_sfi e <= 10 -> Forall short_header datas) ->
  sfi_loop fuel s e rec oda l = Ret (if oda || oda' then TAL_ODA_RECORD_INVALID else 0, l ++ fs, s').
Proof.
  intros Hsfi Hlast. induction n as [|n IH]; intros fuel s rec oda l datas fs oda' s' Hrec Hn Hf R G Sh; (destruct fuel as [|fuel]; [lia|]); cbn [TalModel.sfi_loop].
  - destruct (Z.ltb_spec (a_last e) rec); [|lia]. cbn [rest_of seq map] in *. inversion R; subst. inversion G; subst.
    now rewrite orb_false_r, app_nil_r.
  - destruct (Z.ltb_spec (a_last e) rec); [lia|]. rewrite rest_of_S in *.
    inversion R as [|? ? ? a ? datas0 ? Ea R0 S0 R' Q1 Q2]; subst. clear R. inversion G as [|? ? ? ? ? f0 o0 f1 o1 G0 G1]; subst. clear G.
    rewrite Ea. cbn [bind]. rewrite R0, S0. cbn [Z.eqb Pos.eqb negb].
    assert (Bs : is_byte (a_sfi e)) by (unfold is_byte; lia). assert (Br : is_byte rec) by (unfold is_byte; lia).
    destruct (read_good s _ _ a Bs Br Ea R0) as [Bd Ld].
    rewrite (sfi_record_complete (a_sfi e) (n_data a) l f0 o0); auto.
    2:{ intro K. specialize (Sh K). now inversion Sh. }
    cbn [bind]. change (negb (0 =? 0)) with false. cbv iota. rewrite u8_id by (unfold is_byte; lia).
    rewrite (IH fuel (n_st a) (rec + 1) (oda || o0)%bool (l ++ f0) datas0 f1 o1 s'); auto; try lia.
    + now rewrite orb_assoc, app_assoc.
    + intro K. specialize (Sh K). now inversion Sh.
Qed.
End Run.

Lemma afl_octets_inj e e' r r' : afl_valid e -> afl_valid e' -> afl_octets e ++ r = afl_octets e' ++ r' -> e = e' /\ r = r'.
Proof.
  destruct e as [a b c d], e' as [a' b' c' d']. cbn [afl_octets a_sfi a_first a_last a_oda app]. intros _ _ H.
  injection H as H1 -> -> -> ->. split; [|reflexivity]. f_equal. lia.
Qed.
Lemma afl_next_valid e es : afl_valid e -> Forall afl_valid es ->
  afl_itr_next (afl_octets e ++ flat_map afl_octets es) = Ret (4, Some e, flat_map afl_octets es).
Proof.
  intros V Vs. assert (B : bytes (flat_map afl_octets (e :: es))) by (apply afl_flat_bytes; now constructor).
  destruct (afl_next_spec _ B) as [[E1 E2]|[(e' & rest & E1 & V' & _ & E2)|(E1 & V' & r & Hr & E2)]].
  - discriminate.
  - cbn [flat_map] in *. rewrite E2. apply afl_octets_inj in E1 as [-> ->]; auto.
  - exfalso. apply V'; [|exists e; split; [auto|reflexivity]].
    unfold Zlen. clear. generalize (e :: es). intro l. induction l as [|e0 l IH]; [reflexivity|].
    cbn [flat_map]. rewrite app_length. cbn [afl_octets length]. rewrite Nat2Z.inj_add.
    rewrite Z.add_mod by lia. rewrite IH. reflexivity.
Qed.

Section RunAfl.
Context {T : Type} (x : transport T) (W : wf_transport x).
Lemma sfi_code rfuel s e l r l' s' : afl_valid e -> read_sfi_records x rfuel s e l = Ret (r, l', s') ->
  r < 0 \/ (a_last e < 255 /\ (r = 0 \/ r = TAL_ODA_RECORD_INVALID)).
Proof.
  intros (V1 & V2 & V3 & V4) E. unfold read_sfi_records in E. destruct (Z.eq_dec (a_last e) 255) as [L|L].
  - left. eapply sfi_loop_255 in E; eauto. unfold is_byte; lia.
  - eapply (sfi_loop_run x W e V1 ltac:(lia) (Z.to_nat (a_last e - a_first e + 1))) in E; [|lia|lia].
    destruct E as (done & todo & datas & fs & oda & s1 & _ & _ & _ & [(_ & E)|(sfi & rec & rest & a & r0 & fs' & _ & _ & F & E & _)]).
    + right. split; [lia|]. injection E as -> _ _. cbn [orb]. destruct oda; auto.
    + left. injection E as -> _ _. eapply fails_code; eauto.
Qed.
Lemma afl_loop_accept rfuel fuel : forall itr s oda l r l' s', bytes itr ->
  afl_loop x fuel rfuel s itr oda l = Ret (r, l', s') -> 0 <= r ->
  exists es, itr = flat_map afl_octets es /\ Forall afl_valid es /\ Forall (fun e => a_last e < 255) es.
Proof.
  induction fuel as [|fuel IH]; intros itr s oda l r l' s' B E Hr; [discriminate|]. cbn [afl_loop] in E.
  destruct (afl_next_spec itr B) as [[E1 E2]|[(e & rest & E1 & V & _ & E2)|(E1 & V' & r0 & Hr0 & E2)]]; rewrite E2 in E; cbn [bind] in E.
  - exists []. repeat split; auto.
  - change (0 <? 4) with true in E. cbv iota in E. apply bind_Ret_inv in E as ([[r1 l1] s1] & Es & E).
    apply sfi_code in Es; auto. subst itr. apply bytes_app in B as [_ B].
    assert (K : exists s1 oda1 l1, afl_loop x fuel rfuel s1 rest oda1 l1 = Ret (r, l', s') /\ a_last e < 255).
    { destruct (Z.eqb_spec r1 0) as [->|N0].
      - destruct Es as [Es|[Es _]]; [lia|]. eauto.
      - destruct (Z.eqb_spec r1 TAL_ODA_RECORD_INVALID) as [->|N1].
        + destruct Es as [Es|[Es _]]; [discriminate|]. eauto.
        + injection E as -> _ _. lia. }
    destruct K as (s2 & oda2 & l2 & K & Kl). apply IH in K as (es & -> & Vs & Ls); auto.
    exists (e :: es). repeat split; auto.
  - destruct (Z.ltb_spec 0 r0); [lia|]. destruct (Z.ltb_spec r0 0); [|lia]. injection E as <- _ _. exfalso. revert Hr. cbv. auto.
Qed.
Lemma afl_loop_run rfuel es : Forall afl_valid es -> Forall (fun e => a_last e < 255) es -> forall fuel s oda l res,
  afl_loop x fuel rfuel s (flat_map afl_octets es) oda l = Ret res ->
  exists done todo datas fs oda' s1, flat_map listed es = done ++ todo /\ reads x s done datas s1 /\ records_give false done datas fs oda' /\
    ((todo = [] /\ res = (if oda || oda' then TAL_ODA_RECORD_INVALID else 0, l ++ fs, s1)) \/
     (exists sfi rec rest a r fs', todo = (sfi, rec) :: rest /\ x_read x s1 sfi rec = Ret a /\ record_fails sfi a r /\
        res = (r, l ++ fs ++ fs', n_st a) /\ Forall (field_of (n_data a)) fs')).
Proof.
  induction 1 as [|e es V Vs IH]; intros Ls fuel s oda l res E; (destruct fuel as [|fuel]; [discriminate|]); cbn [afl_loop] in E.
  - cbn in E. injection E as <-. exists [], [], [], [], false, s. split; [reflexivity|]. split; [constructor|]. split; [constructor|].
    left. split; [reflexivity|]. now rewrite orb_false_r, app_nil_r.
  - cbn [flat_map] in E. rewrite afl_next_valid in E by auto. cbn [bind] in E. change (0 <? 4) with true in E. cbv iota in E.
    inversion Ls as [|? ? Le Ls']; subst. apply bind_Ret_inv in E as ([[r1 l1] s1] & Es & E).
    unfold read_sfi_records in Es. pose proof V as (V1 & V2 & V3 & V4).
    eapply (sfi_loop_run x W e V1 Le (Z.to_nat (a_last e - a_first e + 1))) in Es; [|lia|lia].
    rewrite <- listed_rest in Es. cbn [flat_map].
    destruct Es as (done & todo & datas & fs & oda' & s2 & D1 & D2 & D3 & [(D4 & D5)|(sfi & rec & rest & a & r0 & fs' & D4 & D5 & D6 & D7 & D8)]).
    + subst todo. rewrite app_nil_r in D1. subst done. injection D5 as -> -> ->. cbn [orb] in E.
      assert (K : afl_loop x fuel rfuel s2 (flat_map afl_octets es) (oda || oda')%bool (l ++ fs) = Ret res).
      { destruct oda'; [change (TAL_ODA_RECORD_INVALID =? 0) with false in E; rewrite Z.eqb_refl in E; rewrite orb_true_r; exact E|].
        rewrite orb_false_r. exact E. }
      apply IH in K; auto. destruct K as (done & todo & datas2 & fs2 & oda2 & s3 & K1 & K2 & K3 & K4).
      exists (listed e ++ done), todo, (datas ++ datas2), (fs ++ fs2), (oda' || oda2)%bool, s3.
      split; [now rewrite K1, app_assoc|]. split; [eapply reads_app; eauto|]. split; [apply gives_app; auto|].
      rewrite orb_assoc. destruct K4 as [(K4 & K5)|(sfi & rec & rest & a & r0 & fs' & K4 & K5 & K6 & K7 & K8)].
      * left. split; auto. now rewrite app_assoc.
      * right. exists sfi, rec, rest, a, r0, fs'. repeat split; auto. rewrite K7. now rewrite <- !app_assoc.
    + injection D7 as -> -> ->. pose proof (fails_code _ _ _ D6) as Ng.
      destruct (Z.eqb_spec r0 0); [lia|]. destruct (Z.eqb_spec r0 TAL_ODA_RECORD_INVALID) as [E14|_]; [revert Ng; rewrite E14; cbv; discriminate|].
      injection E as <-. exists done, (todo ++ flat_map listed es), datas, fs, oda', s2.
      split; [now rewrite D1, app_assoc|]. split; [auto|]. split; [auto|]. right.
      exists sfi, rec, (rest ++ flat_map listed es), a, r0, fs'. repeat split; auto. now rewrite D4.
Qed.
Lemma afl_loop_complete rfuel es : (256 <= rfuel)%nat -> Forall afl_valid es -> Forall (fun e => a_last e < 255) es -> forall fuel s oda l datas fs oda' s',
  (length es < fuel)%nat ->
  reads x s (flat_map listed es) datas s' -> records_give true (flat_map listed es) datas fs oda' ->
  Forall2 (fun q d => fst q <= 10 -> short_header d) (flat_map listed es) datas ->
  afl_loop x fuel rfuel s (flat_map afl_octets es) oda l = Ret (if oda || oda' then TAL_ODA_RECORD_INVALID else 0, l ++ fs, s').
Proof.
  intro Hrf. induction 1 as [|e es V Vs IH]; intros Ls fuel s oda l datas fs oda' s' Hf R G Sh; (destruct fuel as [|fuel]; [cbn [length] in Hf; lia|]); cbn [afl_loop].
  - cbn [flat_map] in *. inversion R; subst. inversion G; subst. cbn. now rewrite orb_false_r, app_nil_r.
  - cbn [flat_map] in *. rewrite afl_next_valid by auto. cbn [bind]. change (0 <? 4) with true. cbv iota.
    inversion Ls as [|? ? Le Ls']; subst. pose proof V as (V1 & V2 & V3 & V4).
    apply reads_app_inv in R as (d1 & d2 & s1 & -> & R1 & R2). pose proof (reads_length _ _ _ _ _ R1) as L1.
    apply gives_app_inv in G as (f1 & o1 & f2 & o2 & -> & -> & G1 & G2); [|auto].
    apply Forall2_app_inv_l in Sh as (d1' & d2' & Sh1 & Sh2 & Ed).
    assert (Q : d1 = d1' /\ d2 = d2').
    { apply app_len_inj; [|exact Ed]. rewrite L1. clear -Sh1. induction Sh1; cbn [length]; lia. }
    destruct Q as [<- <-]. unfold read_sfi_records.
    rewrite (sfi_loop_complete x W e V1 Le (Z.to_nat (a_last e - a_first e + 1)) rfuel s (a_first e) false l d1 f1 o1 s1); auto; try lia.
    2:{ intro K. clear -Sh1 K. unfold listed in Sh1. revert d1 Sh1.
        generalize (seq 0 (Z.to_nat (a_last e - a_first e + 1))). intro ls. induction ls as [|i ls IHl]; intros d1 F; inversion F; subst; constructor; auto. }
    cbn [bind orb]. assert (E : forall b : bool, b = o1 -> (if (if b then TAL_ODA_RECORD_INVALID else 0) =? 0 then afl_loop x fuel rfuel s1 (flat_map afl_octets es) oda (l ++ f1)
      else if (if b then TAL_ODA_RECORD_INVALID else 0) =? TAL_ODA_RECORD_INVALID then afl_loop x fuel rfuel s1 (flat_map afl_octets es) true (l ++ f1)
      else Ret (if b then TAL_ODA_RECORD_INVALID else 0, l ++ f1, s1)) = afl_loop x fuel rfuel s1 (flat_map afl_octets es) (oda || b)%bool (l ++ f1)).
    { intros b _. destruct b; cbn; [rewrite orb_true_r; reflexivity|rewrite orb_false_r; reflexivity]. }
    rewrite E by reflexivity. cbn [length] in Hf. rewrite (IH Ls' fuel s1 (oda || o1)%bool (l ++ f1) d2 f2 o2 s'); auto; [|lia].
    now rewrite orb_assoc, app_assoc.
Qed.
End RunAfl.

Section TopAfl.
Context {T : Type} (x : transport T) (W : wf_transport x).
Lemma afl_init_flat es : Forall afl_valid es -> (1 <= length es <= 63)%nat ->
  (length (flat_map afl_octets es) =? 0)%nat = false /\ afl_itr_init (flat_map afl_octets es) = (0, Some (flat_map afl_octets es)).
Proof.
  intros V L. pose proof (afl_flat_len es) as Le. split; [apply Nat.eqb_neq; lia|].
  pose proof (afl_init_spec (flat_map afl_octets es)) as [I1 I2].
  assert (Q : fst (afl_itr_init (flat_map afl_octets es)) = 0).
  { apply I1. unfold Zlen. rewrite Le. split; [lia|]. rewrite Nat2Z.inj_mul, Z.mul_comm. apply Z.mod_mul. lia. }
  specialize (I2 Q). destruct (afl_itr_init _) as [a b]. cbn [fst snd] in *. now subst.
Qed.
Lemma read_afl_outcome es rfuel s l res : Forall afl_valid es -> Forall (fun e => a_last e < 255) es -> (1 <= length es <= 63)%nat ->
  read_afl_records x rfuel s (flat_map afl_octets es) l = Ret res -> outcome x s (flat_map listed es) l res.
Proof.
  intros V Ls L E. unfold read_afl_records in E. destruct (afl_init_flat es V L) as [I1 I2]. rewrite I1, I2 in E.
  eapply (afl_loop_run x W rfuel es V Ls) in E. exact E.
Qed.
Lemma read_afl_complete es rfuel s l datas fs oda s' : Forall afl_valid es -> Forall (fun e => a_last e < 255) es -> (1 <= length es <= 63)%nat ->
  (256 <= rfuel)%nat -> reads x s (flat_map listed es) datas s' -> records_give true (flat_map listed es) datas fs oda ->
  Forall2 (fun q d => fst q <= 10 -> short_header d) (flat_map listed es) datas ->
  read_afl_records x rfuel s (flat_map afl_octets es) l = Ret (if oda then TAL_ODA_RECORD_INVALID else 0, l ++ fs, s').
Proof.
  intros V Ls L Hf R G Sh. unfold read_afl_records. destruct (afl_init_flat es V L) as [I1 I2]. rewrite I1, I2.
  rewrite (afl_loop_complete x W rfuel es Hf V Ls _ s false l datas fs oda s'); auto. rewrite afl_flat_len. lia.
Qed.
Lemma read_afl_sound afl rfuel s l r l' s' : bytes afl -> read_afl_records x rfuel s afl l = Ret (r, l', s') ->
  r = 0 \/ r = TAL_ODA_RECORD_INVALID ->
  exists es datas fs oda, afl = flat_map afl_octets es /\ Forall afl_valid es /\
    reads x s (flat_map listed es) datas s' /\ records_give false (flat_map listed es) datas fs oda /\
    l' = l ++ fs /\ r = (if oda then TAL_ODA_RECORD_INVALID else 0).
Proof.
  intros B E Hr. unfold read_afl_records in E. destruct (length afl =? 0)%nat; [injection E as <- _ _; exfalso; destruct Hr; discriminate|].
  pose proof (afl_init_spec afl) as [I1 I2]. destruct (afl_itr_init afl) as [a [itr|]] eqn:Ei.
  - assert (Q : a = 0 /\ itr = afl).
    { cbn [fst snd] in *. unfold afl_itr_init in Ei. repeat match type of Ei with (if ?c then _ else _) = _ => destruct c end; try discriminate. injection Ei as <- <-. auto. }
    destruct Q as [-> ->]. pose proof E as E'. eapply (afl_loop_accept x W) in E'; auto; [|destruct Hr as [->| ->]; [lia|cbv; discriminate]].
    destruct E' as (es & -> & V & Ls). eapply (afl_loop_run x W rfuel es V Ls) in E.
    destruct E as (done & todo & datas & fs & oda & s1 & E1 & E2 & E3 & [(E4 & E5)|(sfi & rec & rest & a & r0 & fs' & _ & _ & F & E5 & _)]).
    + subst todo. rewrite app_nil_r in E1. subst done. injection E5 as -> -> ->. exists es, datas, fs, oda. repeat split; auto.
    + exfalso. injection E5 as -> _ _. apply fails_code in F. destruct Hr as [->| ->]; [lia|discriminate].
  - exfalso. destruct (a <? 0); injection E as <- _ _; destruct Hr; discriminate.
Qed.
(** Ends. *)
Lemma sfi_loop_ends e : 1 <= a_sfi e <= 30 -> a_last e < 255 -> forall n fuel s rec oda l,
  1 <= rec -> rec + Z.of_nat n = a_last e + 1 -> (n < fuel)%nat -> sfi_loop x fuel s e rec oda l = NoFuel ->
  exists s1 sfi rec1, x_read x s1 sfi rec1 = NoFuel.
Proof.
  intros Hsfi Hlast. induction n as [|n IH]; intros fuel s rec oda l Hrec Hn Hf E; (destruct fuel as [|fuel]; [lia|]); cbn [sfi_loop] in E.
  - destruct (Z.ltb_spec (a_last e) rec); [discriminate|lia].
  - destruct (Z.ltb_spec (a_last e) rec); [lia|].
    assert (Bs : is_byte (a_sfi e)) by (unfold is_byte; lia). assert (Br : is_byte rec) by (unfold is_byte; lia).
    destruct (x_read x s (a_sfi e) rec) as [a| |] eqn:Ea; [|discriminate|eauto]. cbn [bind] in E.
    destruct (Z.eqb_spec (n_ret a) 0) as [R0|R0]; cbn [negb] in E; [|discriminate].
    destruct (Z.eqb_spec (n_sw a) 0x9000) as [S0|S0]; cbn [negb] in E; [|discriminate].
    destruct (read_good x W s _ _ a Bs Br Ea R0) as [Bd Ld].
    destruct (list_eq_dec Z.eq_dec (n_data a) []) as [Ee|Ne]; [rewrite Ee in E; discriminate|].
    destruct (sfi_record_spec (a_sfi e) (n_data a) l Bd Ld ltac:(lia) Ne) as [(fs & o & Er & G)|(r & fs & Er & Ff & C)]; rewrite Er in E; cbn [bind] in E.
    + change (negb (0 =? 0)) with false in E. cbv iota in E. rewrite (u8_id (rec + 1)) in E by (unfold is_byte; lia). eapply IH in E; eauto; lia.
    + destruct (negb (r =? 0)) eqn:Nr; [discriminate|]. exfalso.
      destruct C as [(-> & _)|(_ & [(-> & _)| ->] & _)]; discriminate.
Qed.
Lemma afl_loop_ends rfuel fuel : (256 <= rfuel)%nat -> forall itr s oda l, bytes itr -> (length itr < fuel)%nat ->
  (forall es rest, itr = flat_map afl_octets es ++ rest -> Forall afl_valid es -> Forall (fun e => a_last e < 255) es) ->
  afl_loop x fuel rfuel s itr oda l = NoFuel -> exists s1 sfi rec1, x_read x s1 sfi rec1 = NoFuel.
Proof.
  intro Hrf. induction fuel as [|fuel IH]; intros itr s oda l B L Hl E; [lia|]. cbn [afl_loop] in E.
  destruct (afl_next_spec itr B) as [[E1 E2]|[(e & rest & E1 & V & _ & E2)|(E1 & V' & r0 & Hr0 & E2)]]; rewrite E2 in E; cbn [bind] in E.
  - discriminate.
  - change (0 <? 4) with true in E. cbv iota in E. subst itr.
    assert (Le : a_last e < 255).
    { specialize (Hl [e] rest). cbn [flat_map] in Hl. rewrite app_nil_r in Hl. specialize (Hl eq_refl (Forall_cons _ V (Forall_nil _))). now inversion Hl. }
    pose proof V as (V1 & V2 & V3 & V4).
    destruct (read_sfi_records x rfuel s e l) as [[[r1 l1] s1]| |] eqn:Es; [|discriminate|].
    2:{ unfold read_sfi_records in Es. eapply (sfi_loop_ends e V1 Le (Z.to_nat (a_last e - a_first e + 1))) in Es; auto; lia. }
    cbn [bind] in E. apply bytes_app in B as [_ B].
    assert (Lr : (length rest < fuel)%nat) by (rewrite app_length in L; cbn [length afl_octets] in L; lia).
    assert (Hl' : forall es rest', rest = flat_map afl_octets es ++ rest' -> Forall afl_valid es -> Forall (fun e => a_last e < 255) es).
    { intros es rest' -> Vs. specialize (Hl (e :: es) rest'). cbn [flat_map] in Hl. rewrite <- app_assoc in Hl.
      specialize (Hl eq_refl (Forall_cons _ V Vs)). now inversion Hl. }
    destruct (r1 =? 0); [eapply IH; eauto|]. destruct (r1 =? TAL_ODA_RECORD_INVALID); [eapply IH; eauto|]. discriminate.
  - destruct (Z.ltb_spec 0 r0); [lia|]. destruct (Z.ltb_spec r0 0); [|lia]. discriminate.
Qed.
Lemma read_afl_ends afl rfuel s l : bytes afl -> (256 <= rfuel)%nat ->
  (forall es rest, afl = flat_map afl_octets es ++ rest -> Forall afl_valid es -> Forall (fun e => a_last e < 255) es) ->
  read_afl_records x rfuel s afl l = NoFuel -> exists s1 sfi rec1, x_read x s1 sfi rec1 = NoFuel.
Proof.
  intros B Hrf Hl E. unfold read_afl_records in E. destruct (length afl =? 0)%nat; [discriminate|].
  destruct (afl_itr_init afl) as [a [itr|]] eqn:Ei; [|discriminate].
  assert (Q : itr = afl).
  { unfold afl_itr_init in Ei. repeat match type of Ei with (if ?c then _ else _) = _ => destruct c end; try discriminate. injection Ei as <- <-. auto. }
  subst itr. eapply afl_loop_ends in E; eauto.
Qed.
(** The only undefined behaviour: a record without octets. *)
Definition empty_record : Prop := exists s1 sfi rec a, x_read x s1 sfi rec = Ret a /\ n_ret a = 0 /\ n_sw a = 0x9000 /\ n_data a = [].
Lemma sfi_loop_ub e : 1 <= a_sfi e <= 30 -> forall fuel s rec oda l, is_byte rec ->
  sfi_loop x fuel s e rec oda l = UB -> empty_record.
Proof.
  intros Hsfi. induction fuel as [|fuel IH]; intros s rec oda l Br E; [discriminate|]; cbn [sfi_loop] in E.
  destruct (Z.ltb_spec (a_last e) rec); [discriminate|].
  assert (Bs : is_byte (a_sfi e)) by (unfold is_byte; lia).
  destruct (x_read x s (a_sfi e) rec) as [a| |] eqn:Ea; [| |discriminate].
  2:{ exfalso. destruct W as (_ & _ & Wr & _). specialize (Wr s _ _ Bs Br). rewrite Ea in Wr. exact Wr. }
  cbn [bind] in E. destruct (Z.eqb_spec (n_ret a) 0) as [R0|R0]; cbn [negb] in E; [|discriminate].
  destruct (Z.eqb_spec (n_sw a) 0x9000) as [S0|S0]; cbn [negb] in E; [|discriminate].
  destruct (read_good x W s _ _ a Bs Br Ea R0) as [Bd Ld].
  destruct (list_eq_dec Z.eq_dec (n_data a) []) as [Ee|Ne]; [exists s, (a_sfi e), rec, a; auto|].
  destruct (sfi_record_spec (a_sfi e) (n_data a) l Bd Ld ltac:(lia) Ne) as [(fs & o & Er & G)|(r & fs & Er & Ff & C)]; rewrite Er in E; cbn [bind] in E.
  - change (negb (0 =? 0)) with false in E. cbv iota in E. eapply IH in E; eauto using u8_next.
  - destruct (negb (r =? 0)) eqn:Nr; [discriminate|]. eapply IH in E; eauto using u8_next.
Qed.
Lemma read_afl_ub afl rfuel s l : bytes afl -> read_afl_records x rfuel s afl l = UB -> empty_record.
Proof.
  intros B E. unfold read_afl_records in E. destruct (length afl =? 0)%nat; [discriminate|].
  destruct (afl_itr_init afl) as [a [itr|]] eqn:Ei; [|discriminate].
  assert (Q : itr = afl).
  { unfold afl_itr_init in Ei. repeat match type of Ei with (if ?c then _ else _) = _ => destruct c end; try discriminate. injection Ei as <- <-. auto. }
  subst itr. clear Ei. revert E. generalize (S (length afl)). intro fuel. generalize false as oda. revert s l afl B.
  induction fuel as [|fuel IH]; intros s l itr B oda E; [discriminate|]. cbn [afl_loop] in E.
  destruct (afl_next_spec itr B) as [[E1 E2]|[(e & rest & E1 & V & _ & E2)|(E1 & V' & r0 & Hr0 & E2)]]; rewrite E2 in E; cbn [bind] in E.
  - discriminate.
  - change (0 <? 4) with true in E. cbv iota in E. subst itr. apply bytes_app in B as [_ B]. pose proof V as (V1 & V2 & V3 & V4).
    destruct (read_sfi_records x rfuel s e l) as [[[r1 l1] s1]| |] eqn:Es; [| |discriminate].
    + cbn [bind] in E. destruct (r1 =? 0); [eapply IH; eauto|]. destruct (r1 =? TAL_ODA_RECORD_INVALID); [eapply IH; eauto|]. discriminate.
    + unfold read_sfi_records in Es. eapply sfi_loop_ub in Es; eauto. unfold is_byte; lia.
  - destruct (Z.ltb_spec 0 r0); [lia|]. destruct (Z.ltb_spec r0 0); [|lia]. discriminate.
Qed.
End TopAfl.

(** ** Fields of forests *)
Lemma forest_wf d enc ts : forest d enc ts -> small enc -> Forall wf_field (flat_map leaves ts).
Proof.
  assert (Sm : forall a b : list Z, small (a ++ b) -> small a /\ small b).
  { intros a b H. unfold small, Zlen in *. rewrite app_length in H. lia. }
  induction 1 as [|enc tag flags v encs ts He Hf Hr IH|enc tag flags v kids encs ts He Hf Hk IHk Hr IH|id v kids encs ts Hd Hid Hc Hk IHk Hr IH]; intro S.
  - constructor.
  - apply Sm in S as [S1 S2]. cbn [flat_map leaves app]. constructor; auto. destruct He as [Hv (id & lf & -> & _)].
    split; [reflexivity|]. split; [exact Hv|]. cbn [f_val]. apply Sm in S1 as [_ S1]. now apply Sm in S1.
  - apply Sm in S as [S1 S2]. cbn [flat_map leaves]. apply Forall_app. split; auto. apply IHk. destruct He as [Hv (id & lf & -> & _)].
    apply Sm in S1 as [_ S1]. now apply Sm in S1.
  - apply Sm in S as [_ S]. change (128 :: v ++ encs) with ([128] ++ v ++ encs) in S. apply Sm in S as [_ S]. apply Sm in S as [S1 S2].
    cbn [flat_map leaves]. apply Forall_app. auto.
Qed.
Lemma first_with_in tag l f : first_with tag l f -> In f l.
Proof. intros (pre & post & -> & _). apply in_or_app. right. now left. Qed.
Lemma pse_app_wf junk pse entry a : length junk = 17%nat -> Forall wf_field pse -> bytes entry -> small entry ->
  app_create_from_pse junk pse entry = Ret (Some a) -> Forall wf_field (a_tlvs a) /\ wf_field (a_aid a).
Proof.
  intros Lj Wp B S E. destruct (create_pse junk pse entry Lj Wp B S) as [(a' & ts & E' & Fo & Et & (Fa & _))|(E' & _)]; rewrite E in E'; [|discriminate].
  injection E' as <-. assert (Wt : Forall wf_field (a_tlvs a)) by (rewrite Et; eapply forest_wf; eauto).
  split; [exact Wt|]. apply first_with_in in Fa. rewrite Forall_forall in Wt. auto.
Qed.
Lemma piece_val p t : piece p t -> bytes p -> bytes (b_val t) /\ (length (b_val t) < length p)%nat.
Proof.
  intros [[He _]|(id & -> & Hid & _)] B.
  - split; [apply He|]. apply encodes_vlen in He. lia.
  - apply bytes_app in B as [_ B]. inversion B as [|? ? _ Bq]; subst. split; [exact Bq|]. rewrite app_length. cbn [length]. lia.
Qed.
Lemma fci_app_wf junk fci a : length junk = 17%nat -> bytes fci -> small fci ->
  app_create_from_fci junk fci = Ret (Some a) -> Forall wf_field (a_tlvs a) /\ wf_field (a_aid a).
Proof.
  intros Lj B S E. assert (Ne : fci <> []) by (intros ->; discriminate).
  destruct (create_fci junk fci Lj B S Ne) as [(a' & t & ts & E' & P & _ & Fo & Et & (Fa & _))|(E' & _)]; rewrite E in E'; [|discriminate].
  injection E' as <-. destruct (piece_val fci t P B) as [Bv Lv].
  assert (Wt : Forall wf_field (a_tlvs a)) by (rewrite Et; eapply forest_wf; eauto; eapply small_le; [exact S|lia]).
  split; [exact Wt|]. apply first_with_in in Fa. rewrite Forall_forall in Wt. auto.
Qed.

(** ** Directory records *)
Lemma undecodable r rest t : bytes rest -> small rest -> ber_decode rest = Ret (r, t) -> r <= 0 ->
  forall q tag flags v post, encodes q tag flags v -> rest <> q ++ post.
Proof.
  intros B S D Hr q tag flags v post He ->. rewrite (ber_decode_encodes_eq q tag flags v post He S) in D. injection D as <- _.
  apply encodes_length in He. unfold Zlen in Hr. lia.
Qed.
Section Pse.
Context {T : Type} (x : transport T) (W : wf_transport x) (junk : list Z) (Lj : length junk = 17%nat).
Context (supported : list field) (Ws : Forall wf_field supported).

Lemma aef_loop_spec pse : Forall wf_field pse -> forall fuel itr apps, bytes itr -> small itr -> (length itr < fuel)%nat ->
  exists ps ts rest ls, itr = concat ps ++ rest /\ Forall2 piece ps ts /\
    (forall q tag flags v post, encodes q tag flags v -> rest <> q ++ post) /\
    Forall2 (entry_apps junk pse supported) ts ls /\
    aef_loop junk fuel itr pse supported apps = Ret (apps ++ concat ls).
Proof.
  intro Wp. induction fuel as [|fuel IH]; intros itr apps B S L; [lia|]. cbn [aef_loop].
  destruct (itr_next_step itr B S) as (r & t & D & Ok & N). rewrite N. cbn [bind].
  destruct (Z.leb_spec r 0) as [Hr|Hr].
  - exists [], [], itr, []. split; [reflexivity|]. split; [constructor|]. split; [eapply undecodable; eauto|].
    split; [constructor|]. cbn [concat]. now rewrite app_nil_r.
  - destruct t as [t|]; cbn [ber_ok] in Ok; [|lia]. destruct (decode_piece itr r t B S D) as [P Hlen].
    destruct (piece_val _ _ P ltac:(auto)) as [Bv Lv]. rewrite firstn_length_le in Lv by lia.
    assert (Sv : small (b_val t)) by (eapply small_le; [exact S|lia]).
    assert (Step : forall l apps', entry_apps junk pse supported t l ->
      exists ps ts rest ls, itr = concat ps ++ rest /\ Forall2 piece ps ts /\
       (forall q tag flags v post, encodes q tag flags v -> rest <> q ++ post) /\
       Forall2 (entry_apps junk pse supported) ts ls /\
       (apps' = apps ++ l -> aef_loop junk fuel (skipn (Z.to_nat r) itr) pse supported apps' = Ret (apps ++ concat ls))).
    { intros l apps' Ea. destruct (IH (skipn (Z.to_nat r) itr) apps') as (ps & ts & rest & ls & K1 & K2 & K3 & K4 & K5);
        [auto|now apply skipn_small|rewrite skipn_length; lia|].
      exists (firstn (Z.to_nat r) itr :: ps), (t :: ts), rest, (l :: ls).
      split; [cbn [concat]; rewrite <- app_assoc, <- K1; symmetry; apply firstn_skipn|].
      split; [constructor; auto|]. split; [auto|]. split; [constructor; auto|]. intros ->. rewrite K5. cbn [concat]. now rewrite app_assoc. }
    destruct (Z.eqb_spec (b_tag t) 0x61) as [T6|T6]; cbn [negb].
    2:{ destruct (Step [] apps) as (ps & ts & rest & ls & K1 & K2 & K3 & K4 & K5); [now constructor|].
        exists ps, ts, rest, ls. repeat (split; [assumption|]). apply K5. now rewrite app_nil_r. }
    destruct (app_create_from_pse junk pse (b_val t)) as [[a|]| |] eqn:Ea; cbn [bind].
    + pose proof (pse_app_wf junk pse (b_val t) a Lj Wp Bv Sv Ea) as [_ Wa].
      destruct (supported_spec (a_aid a) supported Wa Ws) as (b & Es & Hb). rewrite Es. cbn [bind]. destruct b.
      * destruct (proj1 Hb eq_refl) as (g & Ig & Mg).
        destruct (Step [a] (apps ++ [a])) as (ps & ts & rest & ls & K1 & K2 & K3 & K4 & K5); [eapply ea_app; eauto|].
        exists ps, ts, rest, ls. repeat (split; [assumption|]). now apply K5.
      * destruct (Step [] apps) as (ps & ts & rest & ls & K1 & K2 & K3 & K4 & K5).
        { eapply ea_other; eauto. intros g Ig Mg. assert (false = true) by (apply Hb; eauto). discriminate. }
        exists ps, ts, rest, ls. repeat (split; [assumption|]). apply K5. now rewrite app_nil_r.
    + destruct (Step [] apps) as (ps & ts & rest & ls & K1 & K2 & K3 & K4 & K5); [now apply ea_invalid|].
      exists ps, ts, rest, ls. repeat (split; [assumption|]). apply K5. now rewrite app_nil_r.
    + exfalso. destruct (create_pse junk pse (b_val t) Lj Wp Bv Sv) as [(a' & ts & E' & _)|(E' & _)]; rewrite Ea in E'; discriminate.
    + exfalso. destruct (create_pse junk pse (b_val t) Lj Wp Bv Sv) as [(a' & ts & E' & _)|(E' & _)]; rewrite Ea in E'; discriminate.
Qed.
Lemma parse_aef_spec pse data apps : Forall wf_field pse -> bytes data -> small data ->
  exists r l, parse_aef_record junk pse data supported apps = Ret (r, apps ++ l) /\ 0 <= r /\
    record_apps junk pse supported (0x9000, data) l.
Proof.
  intros Wp B S. unfold parse_aef_record. destruct (ber_decode_safe data B S) as (r & t & D & Ok). rewrite D. cbn [bind].
  destruct (Z.leb_spec r 0) as [Hr|Hr].
  { exists TAL_PSE_AEF_PARSE_FAILED, []. rewrite app_nil_r. split; [reflexivity|]. split; [cbv; discriminate|].
    apply ra_none. intros. eapply undecodable; eauto. }
  destruct t as [t|]; cbn [ber_ok] in Ok; [|lia].
  destruct (Z.eqb_spec (b_tag t) 0x70) as [T7|T7]; cbn [negb].
  2:{ exists TAL_PSE_AEF_INVALID, []. rewrite app_nil_r. split; [reflexivity|]. split; [cbv; discriminate|].
      apply ra_none. intros q flags v post He ->. rewrite (ber_decode_encodes_eq q _ flags v post He S) in D. injection D as _ <-.
      cbn in T7. congruence. }
  destruct (decode_piece data r t B S D) as [P Hlen]. destruct (piece_val _ _ P ltac:(auto)) as [Bv Lv]. rewrite firstn_length_le in Lv by lia.
  assert (Sv : small (b_val t)) by (eapply small_le; [exact S|lia]).
  unfold ber_itr_init. destruct (aef_loop_spec pse Wp (Datatypes.S (length (b_val t))) (b_val t) apps Bv Sv ltac:(lia)) as (ps & ts & rest & ls & K1 & K2 & K3 & K4 & K5).
  rewrite K5. cbn [bind]. exists 0, (concat ls). split; [reflexivity|]. split; [lia|].
  rewrite <- (firstn_skipn (Z.to_nat r) data). eapply ra_template; eauto.
Qed.

Lemma pse_loop_spec pse sfi : Forall wf_field pse -> is_byte sfi -> forall fuel s rec apps, is_byte rec ->
  match pse_loop x junk fuel s sfi rec pse supported apps with
  | UB => False
  | NoFuel => True
  | Ret (r, apps', s') =>
    (r = 0 /\ exists recs ls, directory x sfi s rec recs s' /\ Forall2 (record_apps junk pse supported) recs ls /\ apps' = apps ++ concat ls) \/
    (r = TAL_TTL_FAILURE /\ exists n, directory_fails x sfi s rec n s')
  end.
Proof.
  intros Wp Bsfi. induction fuel as [|fuel IH]; intros s rec apps Br; [exact I|]. cbn [pse_loop].
  destruct W as (_ & _ & Wr & _). specialize (Wr s sfi rec Bsfi Br). destruct (x_read x s sfi rec) as [a| |] eqn:Ea; [|contradiction|exact I].
  cbn [good_answer] in Wr. cbn [bind].
  destruct (Z.eqb_spec (n_ret a) 0) as [R0|R0]; cbn [negb].
  2:{ right. split; [reflexivity|]. exists 0%nat. now constructor. }
  destruct (Z.eqb_spec (n_sw a) 0x6A83) as [S0|S0].
  { left. split; [reflexivity|]. exists [], []. split; [now constructor|]. split; [constructor|]. cbn. now rewrite app_nil_r. }
  assert (Step : forall l apps', record_apps junk pse supported (n_sw a, n_data a) l -> apps' = apps ++ l ->
    match pse_loop x junk fuel (n_st a) sfi (u8 (rec + 1)) pse supported apps' with
    | UB => False
    | NoFuel => True
    | Ret (r, apps', s') =>
      (r = 0 /\ exists recs ls, directory x sfi s rec recs s' /\ Forall2 (record_apps junk pse supported) recs ls /\ apps' = apps ++ concat ls) \/
      (r = TAL_TTL_FAILURE /\ exists n, directory_fails x sfi s rec n s')
    end).
  { intros l apps' Ra ->. specialize (IH (n_st a) (u8 (rec + 1)) (apps ++ l) (u8_next rec)).
    destruct (pse_loop x junk fuel _ _ _ _ _ _) as [[[r apps1] s1]| |]; auto.
    destruct IH as [(-> & recs & ls & K1 & K2 & K3)|(-> & n & K)].
    - left. split; [reflexivity|]. exists ((n_sw a, n_data a) :: recs), (l :: ls). split; [eapply dir_more; eauto|]. split; [constructor; auto|].
      cbn [concat]. now rewrite app_assoc.
    - right. split; [reflexivity|]. exists (Datatypes.S n). eapply dirf_more; eauto. }
  destruct (Z.eqb_spec (n_sw a) 0x9000) as [S9|S9]; cbn [negb].
  2:{ apply (Step []); [now apply ra_status|now rewrite app_nil_r]. }
  destruct (Wr R0) as [Bd Ld]. destruct (parse_aef_spec pse (n_data a) apps Wp Bd (small256 _ Ld)) as (r & l & E & Hr & Ra). rewrite E. cbn [bind].
  destruct (Z.ltb_spec r 0); [lia|]. apply (Step l); auto. now rewrite S9.
Qed.
Lemma pse_loop_ends pse sfi : Forall wf_field pse -> is_byte sfi -> forall fuel s rec recs s' apps, is_byte rec ->
  directory x sfi s rec recs s' -> (length recs < fuel)%nat ->
  pse_loop x junk fuel s sfi rec pse supported apps <> NoFuel.
Proof.
  intros Wp Bsfi. induction fuel as [|fuel IH]; intros s rec recs s' apps Br Dr L; [lia|]. cbn [pse_loop].
  inversion Dr as [? ? a Ea R0 S0|? ? a recs0 ? Ea R0 S0 Dr']; subst; rewrite Ea; cbn [bind]; rewrite R0; change (negb (0 =? 0)) with false; cbv iota.
  - rewrite S0. cbn. discriminate.
  - destruct (Z.eqb_spec (n_sw a) 0x6A83); [contradiction|]. cbn [length] in L.
    destruct (negb _); [eapply IH; eauto using u8_next; lia|].
    destruct W as (_ & _ & Wr & _). specialize (Wr s sfi rec Bsfi Br). rewrite Ea in Wr. destruct (Wr R0) as [Bd Ld].
    destruct (parse_aef_spec pse (n_data a) apps Wp Bd (small256 _ Ld)) as (r & l & E & Hr & Ra). rewrite E. cbn [bind].
    destruct (Z.ltb_spec r 0); [lia|]. eapply IH; eauto using u8_next; lia.
Qed.
Lemma directory_fun sfi s rec recs s' : directory x sfi s rec recs s' -> forall recs2 s2, directory x sfi s rec recs2 s2 -> recs = recs2 /\ s' = s2.
Proof.
  induction 1 as [s rec a Ea R0 S0|s rec a recs s' Ea R0 S0 D IH]; intros recs2 s2 D2; inversion D2 as [? ? a2 Ea2 R2 S2|? ? a2 recs0 ? Ea2 R2 S2 D2']; subst;
    rewrite Ea in Ea2; injection Ea2 as <-; try contradiction; auto.
  apply IH in D2' as [-> ->]. auto.
Qed.
Lemma directory_excl sfi s rec recs s' : directory x sfi s rec recs s' -> forall n s2, ~ directory_fails x sfi s rec n s2.
Proof.
  induction 1 as [s rec a Ea R0 S0|s rec a recs s' Ea R0 S0 D IH]; intros n s2 D2; inversion D2 as [? ? a2 Ea2 R2|? ? a2 n0 ? Ea2 R2 S2 D2']; subst;
    rewrite Ea in Ea2; injection Ea2 as <-; try contradiction. eapply IH; eauto.
Qed.
Lemma pse_loop_fails_ends pse sfi : Forall wf_field pse -> is_byte sfi -> forall n fuel s rec s' apps, is_byte rec ->
  directory_fails x sfi s rec n s' -> (n < fuel)%nat ->
  exists apps', pse_loop x junk fuel s sfi rec pse supported apps = Ret (TAL_TTL_FAILURE, apps', s').
Proof.
  intros Wp Bsfi. induction n as [|n IH]; intros fuel s rec s' apps Br Dr L; (destruct fuel as [|fuel]; [lia|]); cbn [pse_loop];
  inversion Dr as [? ? a Ea R0|? ? a n0 ? Ea R0 S0 Dr']; subst; rewrite Ea; cbn [bind].
  - destruct (Z.eqb_spec (n_ret a) 0); [contradiction|]. cbn [negb]. eauto.
  - rewrite R0; change (negb (0 =? 0)) with false; cbv iota. destruct (Z.eqb_spec (n_sw a) 0x6A83); [contradiction|].
    destruct (negb _); [eapply IH; eauto using u8_next; lia|].
    destruct W as (_ & _ & Wr & _). specialize (Wr s sfi rec Bsfi Br). rewrite Ea in Wr. destruct (Wr R0) as [Bd Ld].
    destruct (parse_aef_spec pse (n_data a) apps Wp Bd (small256 _ Ld)) as (r & l & E & Hr & Ra). rewrite E. cbn [bind].
    destruct (Z.ltb_spec r 0); [lia|]. eapply IH; eauto using u8_next; lia.
Qed.
End Pse.

(** ** Reading the PSE *)
Lemma pse_bytes : bytes EMV_PSE.
Proof. unfold EMV_PSE. repeat (apply bytes_cons; [unfold is_byte; lia|]). constructor. Qed.
Section Top.
Context {T : Type} (x : transport T) (W : wf_transport x) (junk : list Z) (Lj : length junk = 17%nat).

Lemma read_pse_status fuel s supported apps a : x_select x s EMV_PSE = Ret a ->
  (n_ret a <> 0 -> read_pse x junk fuel s supported apps = Ret (TAL_TTL_FAILURE, apps, n_st a)) /\
  (n_ret a = 0 -> n_sw a <> 0x9000 -> exists r, code_for pse_codes TAL_PSE_SELECT_FAILED (n_sw a) r /\
     read_pse x junk fuel s supported apps = Ret (r, apps, n_st a)).
Proof.
  intro E. unfold read_pse. rewrite E. cbn [bind]. split.
  - intro R. destruct (Z.eqb_spec (n_ret a) 0); [contradiction|]. reflexivity.
  - intros -> S9. change (negb (0 =? 0)) with false. cbv iota.
    destruct (Z.eqb_spec (n_sw a) 0x6A81) as [->|K1]; [eexists; split; [|reflexivity]; apply cf_listed; cbn; auto|].
    destruct (Z.eqb_spec (n_sw a) 0x6A82) as [->|K2]; [eexists; split; [|reflexivity]; apply cf_listed; cbn; auto|].
    destruct (Z.eqb_spec (n_sw a) 0x6283) as [->|K3]; [eexists; split; [|reflexivity]; apply cf_listed; cbn; auto|].
    destruct (Z.eqb_spec (n_sw a) 0x9000); [contradiction|]. cbn [negb]. eexists; split; [|reflexivity].
    apply cf_other. cbn. intuition congruence.
Qed.
Lemma read_pse_directory fuel s supported apps a : Forall wf_field supported ->
  x_select x s EMV_PSE = Ret a -> n_ret a = 0 -> n_sw a = 0x9000 ->
  exists pse, Forall (field_of (n_data a)) pse /\ (forall ts, forest true (n_data a) ts -> pse = flat_map leaves ts) /\
  (absent 0x88 pse -> read_pse x junk fuel s supported apps = Ret (TAL_PSE_SFI_NOT_FOUND, [], n_st a)) /\
  (forall f, first_with 0x88 pse f -> Zlen (f_val f) <> 1 -> read_pse x junk fuel s supported apps = Ret (TAL_PSE_SFI_INVALID, [], n_st a)) /\
  (forall f sfi, first_with 0x88 pse f -> f_val f = [sfi] ->
     (forall recs s', directory x sfi (n_st a) 1 recs s' -> (length recs < fuel)%nat ->
        exists ls, Forall2 (record_apps junk pse supported) recs ls /\
          read_pse x junk fuel s supported apps = Ret (0, apps ++ concat ls, s')) /\
     (forall n s', directory_fails x sfi (n_st a) 1 n s' -> (n < fuel)%nat ->
        read_pse x junk fuel s supported apps = Ret (TAL_TTL_FAILURE, [], s')) /\
     match read_pse x junk fuel s supported apps with
     | UB => False
     | NoFuel => True
     | Ret (r, apps', s') => (r = 0 /\ exists recs, directory x sfi (n_st a) 1 recs s') \/
                             (r = TAL_TTL_FAILURE /\ exists n, directory_fails x sfi (n_st a) 1 n s')
     end).
Proof.
  intros Ws E R0 S9. pose proof W as (Wsel & _). specialize (Wsel s EMV_PSE pse_bytes). rewrite E in Wsel. destruct (Wsel R0) as [Bd Ld].
  pose proof (small256 _ Ld) as Sd. destruct (parse_any (n_data a) [] Bd Sd) as (r & pse & Ep & Hr & Ff & _). cbn [app] in Ep.
  exists pse. split; [auto|]. split.
  { intros ts Fo. rewrite (parse_forest _ ts [] Fo Sd) in Ep. cbn [app] in Ep. now injection Ep as _ <-. }
  assert (Wp : Forall wf_field pse) by (eapply Forall_impl; [|exact Ff]; intros f; now apply field_of_wf).
  assert (Rn : r <? 0 = false) by (apply Z.ltb_ge; destruct Hr; lia).
  unfold read_pse. rewrite E. cbn [bind]. rewrite R0, S9. cbn [Z.eqb Pos.eqb negb]. rewrite Ep. cbn [bind]. rewrite Rn.
  split; [|split].
  - intro Ab. apply find_tag_none in Ab. rewrite Ab. reflexivity.
  - intros f Ff8 Lf. assert (Wf : wf_field f) by (apply first_with_in in Ff8; rewrite Forall_forall in Wp; auto).
    apply find_tag_spec in Ff8. rewrite Ff8. destruct Wf as (-> & _). destruct (Z.eqb_spec (Zlen (f_val f)) 1); [contradiction|]. reflexivity.
  - intros f sfi Ff8 Vf. assert (Wf : wf_field f) by (apply first_with_in in Ff8; rewrite Forall_forall in Wp; auto).
    apply find_tag_spec in Ff8. rewrite Ff8. destruct Wf as (Lf & Bf & _). rewrite Lf, Vf. change (negb (Zlen [sfi] =? 1)) with false. cbv iota.
    change (rd [sfi] 0) with (Ret sfi). cbn [bind]. rewrite Vf in Bf. assert (Bs : is_byte sfi) by (now inversion Bf).
    assert (B1 : is_byte 1) by (unfold is_byte; lia).
    pose proof (pse_loop_spec x W junk Lj supported Ws pse sfi Wp Bs fuel (n_st a) 1 apps B1) as Sp. split; [|split].
    + intros recs s' Dr Lf2. pose proof (pse_loop_ends x W junk Lj supported Ws pse sfi Wp Bs fuel (n_st a) 1 recs s' apps B1 Dr Lf2) as Ne.
      destruct (pse_loop _ _ _ _ _ _ _ _ _) as [[[r1 apps1] s1]| |]; [|contradiction|contradiction].
      destruct Sp as [(-> & recs2 & ls & D2 & Fr & ->)|(_ & n & Df)]; [|exfalso; eapply directory_excl; eauto].
      destruct (directory_fun x sfi (n_st a) 1 recs s' Dr recs2 s1 D2) as [-> ->]. exists ls. split; auto.
    + intros n s' Df Ln. destruct (pse_loop_fails_ends x W junk Lj supported Ws pse sfi Wp Bs n fuel (n_st a) 1 s' apps B1 Df Ln) as (apps' & ->). reflexivity.
    + destruct (pse_loop _ _ _ _ _ _ _ _ _) as [[[r1 apps1] s1]| |]; cbn [bind]; auto.
      destruct Sp as [(-> & recs2 & ls & D2 & _)|(-> & n & Df)]; eauto.
Qed.
Lemma read_pse_empty fuel s supported r apps' s' : read_pse x junk fuel s supported [] = Ret (r, apps', s') -> r <> 0 -> apps' = [].
Proof.
  unfold read_pse. intros E N. apply bind_Ret_inv in E as (a & _ & E).
  destruct (negb _); [now injection E as _ <- _|]. destruct (_ =? _); [now injection E as _ <- _|].
  destruct (_ =? _); [now injection E as _ <- _|]. destruct (_ =? _); [now injection E as _ <- _|].
  destruct (negb _); [now injection E as _ <- _|].
  apply bind_Ret_inv in E as ([r1 pse] & _ & E). apply bind_Ret_inv in E as ([[r2 apps2] s2] & _ & E).
  injection E as <- <- _. destruct (Z.eqb_spec r2 0); [contradiction|reflexivity].
Qed.

(** ** Candidates from the list of supported AIDs *)
Lemma find_loop_sound fuel : forall s aids exact apps r apps' s', Forall wf_field aids ->
  find_loop x junk fuel s aids exact apps = Ret (r, apps', s') ->
  exists new, apps' = apps ++ new /\
    Forall (fun a => exists g data, In g aids /\ selected x (f_val g) data /\ app_create_from_fci junk data = Ret (Some a) /\
      (Zlen (f_val g) = Zlen (f_val (a_aid a)) \/ f_flags g = 1)) new.
Proof.
  induction fuel as [|fuel IH]; intros s aids exact apps r apps' s' Wa E; [discriminate|]. cbn [find_loop] in E.
  destruct aids as [|aid rest]; [injection E as _ <- _; exists []; rewrite app_nil_r; split; auto|].
  inversion Wa as [|? ? Wf Wr]; subst. rewrite wf_sub in E by auto. cbn [bind] in E.
  apply bind_Ret_inv in E as (a & Ea & E).
  assert (Sel : x_select x s (f_val aid) = Ret a \/ x_next x s (f_val aid) = Ret a) by (destruct exact; auto). clear Ea.
  destruct (Z.eqb_spec (n_ret a) 0) as [R0|R0]; cbn [negb] in E; [|injection E as _ <- _; exists []; rewrite app_nil_r; split; auto].
  destruct (exact && _)%bool; [injection E as _ <- _; exists []; rewrite app_nil_r; split; auto|].
  assert (Next : forall apps1 new1, apps1 = apps ++ new1 ->
     Forall (fun a => exists g data, In g (aid :: rest) /\ selected x (f_val g) data /\ app_create_from_fci junk data = Ret (Some a) /\
       (Zlen (f_val g) = Zlen (f_val (a_aid a)) \/ f_flags g = 1)) new1 ->
     forall aids2 exact2, (aids2 = rest \/ aids2 = aid :: rest) -> find_loop x junk fuel (n_st a) aids2 exact2 apps1 = Ret (r, apps', s') ->
     exists new, apps' = apps ++ new /\
      Forall (fun a => exists g data, In g (aid :: rest) /\ selected x (f_val g) data /\ app_create_from_fci junk data = Ret (Some a) /\
       (Zlen (f_val g) = Zlen (f_val (a_aid a)) \/ f_flags g = 1)) new).
  { intros apps1 new1 -> F1 aids2 exact2 Ha En. apply IH in En; [|destruct Ha as [->| ->]; auto].
    destruct En as (new & -> & Fn). exists (new1 ++ new). split; [now rewrite app_assoc|]. apply Forall_app. split; auto.
    eapply Forall_impl; [|exact Fn]. intros b (g & data & Ig & K). exists g, data. split; [|exact K]. destruct Ha as [->| ->]; cbn; auto. }
  destruct (_ && _)%bool eqn:Esw.
  { refine (Next _ [] _ _ _ _ _ E); [now rewrite app_nil_r|constructor|auto]. }
  apply bind_Ret_inv in E as (ra & Er & E). destruct ra as [ap|].
  2:{ refine (Next _ [] _ _ _ _ _ E); [now rewrite app_nil_r|constructor|auto]. }
  assert (Wd : bytes (n_data a) /\ Zlen (n_data a) <= 256).
  { pose proof W as (W1 & W2 & _). destruct Wf as (_ & Bf & _). destruct Sel as [Q|Q]; [specialize (W1 s _ Bf)|specialize (W2 s _ Bf)].
    - rewrite Q in W1. auto.
    - rewrite Q in W2. auto. }
  destruct Wd as [Bd Ld]. destruct (fci_app_wf junk (n_data a) ap Lj Bd (small256 _ Ld) Er) as [_ (La & _)].
  destruct Wf as (Lf & _). rewrite Lf, La in E.
  assert (Fa : n_sw a = 0x9000 -> (Zlen (f_val aid) = Zlen (f_val (a_aid ap)) \/ f_flags aid = 1) ->
    Forall (fun a => exists g data, In g (aid :: rest) /\ selected x (f_val g) data /\ app_create_from_fci junk data = Ret (Some a) /\
       (Zlen (f_val g) = Zlen (f_val (a_aid a)) \/ f_flags g = 1)) [ap]).
  { intros S9 K. constructor; [|constructor]. exists aid, (n_data a). split; [now left|]. split; [|auto]. exists s, a. auto. }
  destruct (Z.eqb_spec (Zlen (f_val aid)) (Zlen (f_val (a_aid ap)))) as [El|El].
  - destruct (Z.eqb_spec (n_sw a) 0x9000); [refine (Next _ [ap] eq_refl (Fa _ _) _ _ _ E); auto|refine (Next _ [] _ _ _ _ _ E); [now rewrite app_nil_r|constructor|auto]].
  - destruct (Z.eqb_spec (f_flags aid) 1) as [Ef|Ef].
    + destruct (Z.eqb_spec (n_sw a) 0x9000); [refine (Next _ [ap] eq_refl (Fa _ _) _ _ _ E); auto|refine (Next _ [] _ _ _ _ _ E); [now rewrite app_nil_r|constructor|auto]].
    + refine (Next _ [] _ _ _ _ _ E); [now rewrite app_nil_r|constructor|auto].
Qed.
(** Without partial matching every AID is selected once. *)
Lemma find_loop_ends : forall aids fuel s exact apps, Forall wf_field aids -> Forall (fun g => f_flags g <> 1) aids -> (length aids < fuel)%nat ->
  (forall s name, x_select x s name <> NoFuel /\ x_next x s name <> NoFuel) ->
  find_loop x junk fuel s aids exact apps <> NoFuel.
Proof.
  induction aids as [|aid rest IH]; intros fuel s exact apps Wa Fl L Ne; (destruct fuel as [|fuel]; [lia|]); cbn [find_loop]; [discriminate|].
  inversion Wa as [|? ? Wf Wr]; subst. inversion Fl as [|? ? Fa Fr]; subst. rewrite wf_sub by auto. cbn [bind length] in *.
  assert (Q : exists m, (if exact then x_select x s (f_val aid) else x_next x s (f_val aid)) = m /\ m <> NoFuel /\ good_answer m).
  { pose proof W as (W1 & W2 & _). destruct Wf as (_ & Bf & _). destruct (Ne s (f_val aid)). destruct exact; eexists; (split; [reflexivity|]); auto. }
  destruct Q as (m & -> & Nm & Gm). destruct m as [a| |]; [|discriminate|contradiction]. cbn [bind].
  destruct (Z.eqb_spec (n_ret a) 0) as [R0|R0]; cbn [negb]; [|discriminate].
  destruct (exact && _)%bool; [discriminate|].
  destruct (_ && _)%bool; [apply IH; auto; lia|]. destruct (Gm R0) as [Bd Ld].
  destruct (list_eq_dec Z.eq_dec (n_data a) []) as [Ee|Ee]; [rewrite Ee; discriminate|].
  destruct (create_fci junk (n_data a) Lj Bd (small256 _ Ld) Ee) as [(ap & t & ts & E & _)|(E & _)]; rewrite E; cbn [bind]; [|apply IH; auto; lia].
  destruct (_ =? f_len (a_aid ap)); [apply IH; auto; lia|].
  destruct (Z.eqb_spec (f_flags aid) 1); [contradiction|]. apply IH; auto; lia.
Qed.

(** ** Selecting an application *)
Lemma select_app_spec s aid : bytes aid ->
  match select_app x junk s aid with
  | NoFuel => x_select x s aid = NoFuel
  | UB => 5 <= Zlen aid <= 16 /\ exists a, x_select x s aid = Ret a /\ n_ret a = 0 /\ n_sw a = 0x9000 /\ n_data a = []
  | Ret (r, app_, s') =>
    ((Zlen aid < 5 \/ 16 < Zlen aid) /\ r = TAL_INVALID_PARAMETER /\ app_ = None /\ s' = s) \/
    (5 <= Zlen aid <= 16 /\ exists a, x_select x s aid = Ret a /\ s' = n_st a /\
      ((n_ret a <> 0 /\ r = TAL_TTL_FAILURE /\ app_ = None) \/
       (n_ret a = 0 /\ n_sw a <> 0x9000 /\ code_for select_codes TAL_APP_SELECTION_FAILED (n_sw a) r /\ app_ = None) \/
       (n_ret a = 0 /\ n_sw a = 0x9000 /\ app_create_from_fci junk (n_data a) = Ret None /\ r = TAL_APP_FCI_PARSE_FAILED /\ app_ = None) \/
       (n_ret a = 0 /\ n_sw a = 0x9000 /\ exists ap, app_create_from_fci junk (n_data a) = Ret (Some ap) /\
          ((f_val (a_aid ap) <> aid /\ r = TAL_APP_SELECTION_FAILED /\ app_ = None) \/
           (f_val (a_aid ap) = aid /\ r = 0 /\ app_ = Some ap)))))
  end.
Proof.
  intro B. unfold select_app. destruct (_ || _)%bool eqn:El; [left; repeat split; lia|].
  pose proof W as (W1 & _). specialize (W1 s aid B). destruct (x_select x s aid) as [a| |] eqn:Ea; [|contradiction|reflexivity]. cbn [bind].
  assert (Ll : 5 <= Zlen aid <= 16) by lia.
  destruct (Z.eqb_spec (n_ret a) 0) as [R0|R0]; cbn [negb].
  2:{ right. split; [auto|]. exists a. auto 10. }
  destruct (Z.eqb_spec (n_sw a) 0x9000) as [S9|S9]; cbn [negb].
  2:{ destruct (Z.eqb_spec (n_sw a) 0x6A81) as [K1|K1]; [|destruct (Z.eqb_spec (n_sw a) 0x6A82) as [K2|K2]; [|destruct (Z.eqb_spec (n_sw a) 0x6283) as [K3|K3]]];
      (right; split; [auto|]; exists a; split; [reflexivity|]; split; [reflexivity|]; right; left; split; [auto|]; split; [auto|]; split; [|auto]).
      - rewrite K1. apply cf_listed. cbn; auto.
      - rewrite K2. apply cf_listed. cbn; auto.
      - rewrite K3. apply cf_listed. cbn; auto.
      - apply cf_other. cbn. intuition congruence. }
  destruct (W1 R0) as [Bd Ld].
  destruct (list_eq_dec Z.eq_dec (n_data a) []) as [Ee|Ne].
  { assert (U : app_create_from_fci junk (n_data a) = UB) by (rewrite Ee; reflexivity). rewrite U. cbn [bind]. split; [auto|]. exists a. auto. }
  destruct (create_fci junk (n_data a) Lj Bd (small256 _ Ld) Ne) as [(ap & t & ts & E & _)|(E & _)]; rewrite E; cbn [bind].
  2:{ right. split; [auto|]. exists a. split; [reflexivity|]. split; [reflexivity|]. right; right; left. auto. }
  destruct (fci_app_wf junk (n_data a) ap Lj Bd (small256 _ Ld) E) as [_ (La & Ba & _)].
  assert (Fin : forall r app_, ((f_val (a_aid ap) <> aid /\ r = TAL_APP_SELECTION_FAILED /\ app_ = None) \/ (f_val (a_aid ap) = aid /\ r = 0 /\ app_ = Some ap)) ->
    match Ret (r, app_, n_st a) with
    | NoFuel => Ret a = NoFuel
    | UB => 5 <= Zlen aid <= 16 /\ exists a0, Ret a = Ret a0 /\ n_ret a0 = 0 /\ n_sw a0 = 0x9000 /\ n_data a0 = []
    | Ret (r, app_, s') =>
     ((Zlen aid < 5 \/ 16 < Zlen aid) /\ r = TAL_INVALID_PARAMETER /\ app_ = None /\ s' = s) \/
     (5 <= Zlen aid <= 16 /\ exists a0, Ret a = Ret a0 /\ s' = n_st a0 /\
      ((n_ret a0 <> 0 /\ r = TAL_TTL_FAILURE /\ app_ = None) \/
       (n_ret a0 = 0 /\ n_sw a0 <> 0x9000 /\ code_for select_codes TAL_APP_SELECTION_FAILED (n_sw a0) r /\ app_ = None) \/
       (n_ret a0 = 0 /\ n_sw a0 = 0x9000 /\ app_create_from_fci junk (n_data a0) = Ret None /\ r = TAL_APP_FCI_PARSE_FAILED /\ app_ = None) \/
       (n_ret a0 = 0 /\ n_sw a0 = 0x9000 /\ exists ap, app_create_from_fci junk (n_data a0) = Ret (Some ap) /\
          ((f_val (a_aid ap) <> aid /\ r = TAL_APP_SELECTION_FAILED /\ app_ = None) \/
           (f_val (a_aid ap) = aid /\ r = 0 /\ app_ = Some ap)))))
    end).
  { intros r app_ K. cbv iota beta. right. split; [auto|]. exists a. split; [reflexivity|]. split; [reflexivity|]. right; right; right.
    split; [auto|]. split; [auto|]. exists ap. split; [exact E|exact K]. }
  rewrite La. destruct (Z.eqb_spec (Zlen (f_val (a_aid ap))) (Zlen aid)) as [Elen|Elen]; cbn [negb].
  2:{ apply Fin. left. split; [congruence|auto]. }
  unfold mem_equal. rewrite !sub_Ret by (unfold Zlen in *; lia). cbn [bind skipn].
  rewrite firstn_all. replace (length aid) with (length (f_val (a_aid ap))) by (unfold Zlen in *; lia). rewrite firstn_all.
  destruct (list_eq_dec Z.eq_dec (f_val (a_aid ap)) aid) as [Eq|Nq]; cbn [negb]; apply Fin; auto.
Qed.

(** ** GET PROCESSING OPTIONS *)
Lemma land3u n : 0 <= n -> Z.land n 3 = n mod 4.
Proof. intro. change 3 with (Z.ones 2). rewrite Z.land_ones by lia. reflexivity. Qed.
Definition gpo_parse (t : ber_tlv) : out (list field + Z) :=
      if b_tag t =? 0x80 then
        if ((b_len t <? 6) || negb (Z.land (u32 (b_len t - 2)) 3 =? 0))%bool then Ret (inr TAL_GPO_PARSE_FAILED)
        else
        let* v1 := sub (b_val t) 0 2 in
        let* v2 := sub (b_val t) 2 (Z.to_nat (b_len t - 2)) in
        Ret (inl [mkField 0x82 2 v1 0; mkField 0x94 (b_len t - 2) v2 0])
      else if b_tag t =? 0x77 then
        let* (r, l) := tlv_parse (b_val t) [] in
        if r <? 0 then Ret (inr TAL_INTERNAL) else if 0 <? r then Ret (inr TAL_GPO_PARSE_FAILED) else Ret (inl l)
      else Ret (inl []).
Lemma long_id id : identifier id -> (2 <= length id)%nat -> 31 * 256 <= be id.
Proof.
  intros Hid L. destruct Hid as [b Hb H|b0 more last Hb0 H31 Hm Hl Hlen2]; [cbn [length] in L; lia|].
  rewrite be_cons. assert (31 <= b0) by (unfold is_byte in Hb0; pose proof (Z.mod_le b0 32); lia).
  assert (Bm : bytes (more ++ [last])).
  { apply bytes_app_intro; [eapply Forall_impl; [|exact Hm]; intros b; unfold is_byte; lia|]. apply bytes_cons; [unfold is_byte; lia|constructor]. }
  pose proof (be_range _ Bm). replace (Zlen (more ++ [last])) with (Zlen more + 1) by (rewrite Zlen_app; reflexivity).
  rewrite Z.pow_add_r by (unfold Zlen; lia). assert (0 < 256 ^ Zlen more) by (apply Z.pow_pos_nonneg; unfold Zlen; lia). nia.
Qed.
Lemma gpo_parse_spec data r t : bytes data -> Zlen data <= 256 -> ber_decode data = Ret (r, Some t) ->
  (exists fs, gpo_parse t = Ret (inl fs) /\ ((gpo_fields false data fs /\ (b_tag t = 0x80 \/ b_tag t = 0x77)) \/ (fs = [] /\ b_tag t <> 0x80 /\ b_tag t <> 0x77))) \/
  (gpo_parse t = Ret (inr TAL_GPO_PARSE_FAILED) /\ (forall fs, ~ gpo_fields true data fs)).
Proof.
  intros B L D. pose proof (small256 _ L) as S. destruct (decode_piece data r t B S D) as [P Hlen].
  assert (Ed : data = firstn (Z.to_nat r) data ++ skipn (Z.to_nat r) data) by (symmetry; apply firstn_skipn).
  assert (Un : forall enc tag flags v trail, data = enc ++ trail -> encodes enc tag flags v -> b_tag t = tag /\ b_val t = v).
  { clear P Ed Hlen. intros enc tag flags v trail -> He. rewrite (ber_decode_encodes_eq enc tag flags v trail He S) in D. injection D as _ <-. auto. }
  destruct (piece_val _ _ P ltac:(auto)) as [Bv Lv]. rewrite firstn_length_le in Lv by lia.
  assert (Sv : small (b_val t)) by (eapply small_le; [exact S|lia]).
  assert (Lb : b_len t = Zlen (b_val t)) by (destruct P as [[_ ?]|(id & _ & _ & _ & _ & _ & ?)]; auto).
  unfold gpo_parse. destruct (Z.eqb_spec (b_tag t) 0x80) as [T8|T8].
  - assert (He : encodes (firstn (Z.to_nat r) data) 0x80 (b_flags t) (b_val t)).
    { destruct P as [[He _]|(id & _ & Hid & Hc & Ht & _)]; [now rewrite T8 in He|]. exfalso. rewrite T8 in Ht.
      destruct (Nat.le_gt_cases 2 (length id)) as [G|G]; [pose proof (long_id id Hid G); lia|].
      destruct Hid as [b Hb H|b0 more last Hb0 H31 Hm Hl Hlen2]; [|cbn [length] in G; rewrite app_length in G; cbn [length] in G; lia].
      change (be [b]) with (0 * 256 + b) in Ht. assert (b = 128) by lia. subst b. unfold constructed in Hc. cbn [hd] in Hc. vm_compute in Hc. discriminate. }
    destruct (Z.ltb_spec (b_len t) 6) as [L6|L6]; cbn [orb].
    { right. split; [reflexivity|]. intros fs G. destruct G as [enc flags aip afl trail E1 E2 E3 E4 E5|enc flags v ts trail E1 E2|]; [| |discriminate].
      - destruct (Un _ _ _ _ _ E1 E2) as [_ Ev]. rewrite Ev in Lb. rewrite Zlen_app in Lb.
        destruct afl as [|z afl]; [contradiction|]. unfold Zlen in *. cbn [length] in *. lia.
      - destruct (Un _ _ _ _ _ E1 E2) as [Et _]. congruence. }
    change (u32 (b_len t - 2)) with ((b_len t - 2) mod 2 ^ 32). rewrite Z.mod_small by (unfold Zlen in *; lia). rewrite land3u by lia.
    destruct (Z.eqb_spec ((b_len t - 2) mod 4) 0) as [M4|M4]; cbn [negb].
    + rewrite !sub_Ret by (unfold Zlen in *; lia). cbn [bind]. left. eexists. split; [reflexivity|]. left.
      change (firstn 2 (skipn 0 (b_val t))) with (firstn 2 (b_val t)). rewrite (firstn_all2 (n := Z.to_nat (b_len t - 2))) by (rewrite skipn_length; unfold Zlen in *; lia).
      assert (L2 : Zlen (skipn 2 (b_val t)) = b_len t - 2) by (unfold Zlen in *; rewrite skipn_length; lia).
      rewrite <- L2. split; [|auto]. eapply gpo_1; [exact Ed| | | |].
      * rewrite firstn_skipn. exact He.
      * rewrite firstn_length. unfold Zlen in *. lia.
      * intro K. rewrite K in L2. cbn in L2. lia.
      * now rewrite L2.
    + right. split; [reflexivity|]. intros fs G. destruct G as [enc flags aip afl trail E1 E2 E3 E4 E5|enc flags v ts trail E1 E2|]; [| |discriminate].
      * destruct (Un _ _ _ _ _ E1 E2) as [_ Ev]. rewrite Ev in Lb. rewrite Zlen_app in Lb. apply M4. rewrite <- E5. f_equal. unfold Zlen in *. lia.
      * destruct (Un _ _ _ _ _ E1 E2) as [Et _]. congruence.
  - destruct (Z.eqb_spec (b_tag t) 0x77) as [T7|T7].
    2:{ left. exists []. split; [reflexivity|]. auto. }
    destruct (parse_any (b_val t) [] Bv Sv) as (r2 & l2 & Ep & Hr & Ff & H). rewrite Ep. cbn [bind app].
    destruct Hr as [-> | ->].
    + cbn [Z.ltb Z.compare]. left. exists l2. split; [reflexivity|]. left. split; [|auto]. destruct (H eq_refl) as (ts & Fo & ->).
      eapply gpo_2_indefinite; eauto.
    + right. split; [reflexivity|]. intros fs G. destruct G as [enc flags aip afl trail E1 E2|enc flags v ts trail E1 E2 Fo|]; [| |discriminate].
      * destruct (Un _ _ _ _ _ E1 E2) as [Et _]. congruence.
      * destruct (Un _ _ _ _ _ E1 E2) as [_ Ev]. rewrite Ev in Ep, Sv. rewrite (parse_forest v ts [] Fo Sv) in Ep. discriminate.
Qed.
Lemma gpo_parse_complete data fs : small data -> gpo_fields true data fs ->
  exists r t, ber_decode data = Ret (r, Some t) /\ 0 < r /\ gpo_parse t = Ret (inl fs).
Proof.
  intros S G. destruct G as [enc flags aip afl trail E1 E2 E3 E4 E5|enc flags v ts trail E1 E2 Fo|]; [| |discriminate]; subst data.
  - rewrite (ber_decode_encodes_eq _ _ _ _ trail E2 S). eexists _, _. split; [reflexivity|]. pose proof (encodes_length _ _ _ _ E2) as Le.
    split; [unfold Zlen; lia|]. unfold gpo_parse. cbn [b_tag b_len b_val Z.eqb Pos.eqb].
    assert (Lv : Zlen (aip ++ afl) = 2 + Zlen afl) by (rewrite Zlen_app; unfold Zlen; lia).
    assert (4 <= Zlen afl) by (destruct afl as [|z afl]; [contradiction|]; unfold Zlen in *; cbn [length] in *; lia).
    pose proof (encodes_vlen _ _ _ _ E2) as Hv.
    assert (Zlen (aip ++ afl) < 2 ^ 32) by (unfold small, Zlen in *; rewrite app_length in S; lia).
    replace (Zlen (aip ++ afl) - 2) with (Zlen afl) by lia. destruct (Z.ltb_spec (Zlen (aip ++ afl)) 6); [lia|].
    change (u32 (Zlen afl)) with (Zlen afl mod 2 ^ 32). rewrite Z.mod_small by lia. rewrite land3u by lia. rewrite E5. cbn [Z.eqb negb orb].
    rewrite !sub_Ret by (rewrite app_length; unfold Zlen in *; lia). cbn [bind]. do 3 f_equal.
    + f_equal. change (skipn 0 (aip ++ afl)) with (aip ++ afl). rewrite <- E3. now rewrite firstn_app, Nat.sub_diag, firstn_all, app_nil_r.
    + f_equal. f_equal. rewrite <- E3, skipn_app, Nat.sub_diag, skipn_all. cbn [app skipn]. apply firstn_all2. unfold Zlen. lia.
  - rewrite (ber_decode_encodes_eq _ _ _ _ trail E2 S). eexists _, _. split; [reflexivity|]. pose proof (encodes_length _ _ _ _ E2) as Le.
    split; [unfold Zlen; lia|]. unfold gpo_parse. cbn [b_tag b_len b_val Z.eqb Pos.eqb]. pose proof (encodes_vlen _ _ _ _ E2) as Hv.
    rewrite (parse_forest v ts [] Fo) by (eapply small_le; [exact S|rewrite app_length; lia]). reflexivity.
Qed.

Lemma gpo_spec s data l : match data with Some d => bytes d | None => True end ->
  match get_processing_options x s data l with
  | NoFuel => x_gpo x s data = NoFuel
  | UB => False
  | Ret (r, l', aip, afl, s') =>
    (r = TAL_INVALID_PARAMETER /\ (exists d, data = Some d /\ (Zlen d < 2 \/ 255 < Zlen d)) /\ l' = l /\ s' = s) \/
    ((forall d, data = Some d -> 2 <= Zlen d <= 255) /\ exists a, x_gpo x s data = Ret a /\ s' = n_st a /\
     ((n_ret a <> 0 /\ r = TAL_TTL_FAILURE /\ l' = l) \/
      (n_ret a = 0 /\ n_sw a = 0x6985 /\ r = TAL_GPO_CONDITIONS_NOT_SATISFIED /\ l' = l) \/
      (n_ret a = 0 /\ n_sw a <> 0x9000 /\ n_sw a <> 0x6985 /\ r = TAL_GPO_FAILED /\ l' = l) \/
      (n_ret a = 0 /\ n_sw a = 0x9000 /\ r = TAL_GPO_PARSE_FAILED /\ l' = l /\ forall fs, ~ gpo_fields true (n_data a) fs) \/
      (n_ret a = 0 /\ n_sw a = 0x9000 /\ r = TAL_GPO_FIELD_NOT_FOUND /\ l' = l /\
        forall fs, gpo_fields true (n_data a) fs -> absent 0x82 fs \/ absent 0x94 fs) \/
      (n_ret a = 0 /\ n_sw a = 0x9000 /\ r = 0 /\ exists fs f g, gpo_fields false (n_data a) fs /\ first_with 0x82 fs f /\ first_with 0x94 fs g /\
        l' = l ++ fs /\ aip = GLive f /\ afl = GLive g)))
  end.
Proof.
  intro Bd. unfold get_processing_options. destruct (match data with Some _ => _ | None => _ end) eqn:El.
  { left. split; [reflexivity|]. split; [|auto]. destruct data as [d|]; [|discriminate]. exists d. split; [reflexivity|]. lia. }
  assert (Ll : forall d, data = Some d -> 2 <= Zlen d <= 255) by (intros d ->; lia). clear El.
  pose proof W as (_ & _ & _ & Wg). specialize (Wg s data Bd). destruct (x_gpo x s data) as [a| |] eqn:Ea; [|contradiction|reflexivity]. cbn [bind].
  destruct (Z.eqb_spec (n_ret a) 0) as [R0|R0]; cbn [negb].
  2:{ right. split; [auto|]. exists a. auto 10. }
  destruct (Z.eqb_spec (n_sw a) 0x9000) as [S9|S9]; cbn [negb].
  2:{ right. split; [auto|]. exists a. split; [reflexivity|]. split; [reflexivity|]. destruct (Z.eqb_spec (n_sw a) 0x6985); auto 10. }
  destruct (Wg R0) as [Ba La]. pose proof (small256 _ La) as Sa. destruct (ber_decode_safe (n_data a) Ba Sa) as (r & t & D & Ok).
  rewrite D. cbn [bind].
  destruct (Z.leb_spec r 0) as [Hr|Hr].
  { right. split; [auto|]. exists a. split; [reflexivity|]. split; [reflexivity|]. do 3 right. left. repeat split; auto.
    intros fs G. destruct (gpo_parse_complete _ _ Sa G) as (r2 & t2 & D2 & Hr2 & _). rewrite D in D2. injection D2 as <- _. lia. }
  destruct t as [t|]; cbn [ber_ok] in Ok; [|lia]. fold (gpo_parse t).
  assert (Cm : forall fs, gpo_fields true (n_data a) fs -> gpo_parse t = Ret (inl fs)).
  { intros fs G. destruct (gpo_parse_complete _ _ Sa G) as (r2 & t2 & D2 & Hr2 & Hp). rewrite D in D2. injection D2 as <- <-. auto. }
  destruct (gpo_parse_spec _ r t Ba La D) as [(fs & Ep & Hf)|[Ep Hn]]; rewrite Ep; cbn [bind].
  2:{ right. split; [auto|]. exists a. split; [reflexivity|]. split; [reflexivity|]. do 3 right. left. repeat split; auto. }
  assert (Cm2 : forall fs', gpo_fields true (n_data a) fs' -> fs' = fs) by (intros fs' G; apply Cm in G; congruence). clear Cm.
  destruct (find_tag 0x82 fs) as [f|] eqn:E82.
  2:{ right. split; [auto|]. exists a. split; [reflexivity|]. split; [reflexivity|]. do 4 right. left. repeat split; auto.
      intros fs' G. rewrite (Cm2 _ G). left. now apply find_tag_none. }
  destruct (find_tag 0x94 fs) as [g|] eqn:E94.
  2:{ right. split; [auto|]. exists a. split; [reflexivity|]. split; [reflexivity|]. do 4 right. left. repeat split; auto.
      intros fs' G. rewrite (Cm2 _ G). right. now apply find_tag_none. }
  right. split; [auto|]. exists a. split; [reflexivity|]. split; [reflexivity|]. do 5 right. repeat split; auto.
  apply find_tag_spec in E82, E94. exists fs, f, g. destruct Hf as [[G _]|[-> _]]; [repeat split; auto|]. destruct E82 as (pre & post & K & _). destruct pre; discriminate.
Qed.
Lemma gpo_complete s data l a fs f g : (forall d, data = Some d -> 2 <= Zlen d <= 255) -> x_gpo x s data = Ret a ->
  n_ret a = 0 -> n_sw a = 0x9000 -> Zlen (n_data a) <= 256 -> gpo_fields true (n_data a) fs -> first_with 0x82 fs f -> first_with 0x94 fs g ->
  get_processing_options x s data l = Ret (0, l ++ fs, GLive f, GLive g, n_st a).
Proof.
  intros Ll Ea R0 S9 La G F82 F94. unfold get_processing_options.
  replace (match data with Some _ => _ | None => _ end) with false by (destruct data as [d|]; [specialize (Ll d eq_refl)|reflexivity]; lia).
  rewrite Ea. cbn [bind]. rewrite R0, S9. cbn [Z.eqb Pos.eqb negb].
  destruct (gpo_parse_complete _ _ (small256 _ La) G) as (r & t & -> & Hr & Hp). cbn [bind]. fold (gpo_parse t). rewrite Hp.
  destruct (Z.leb_spec r 0); [lia|]. cbn [bind]. apply find_tag_spec in F82, F94. now rewrite F82, F94.
Qed.
(** The data behind the AIP pointer is freed when the AFL is missing. *)
Lemma gpo_dangling s data l r l' aip afl s' : match data with Some d => bytes d | None => True end ->
  get_processing_options x s data l = Ret (r, l', aip, afl, s') -> afl <> GFreed /\
  (aip = GFreed -> r = TAL_GPO_FIELD_NOT_FOUND /\ exists a fs, x_gpo x s data = Ret a /\ n_sw a = 0x9000 /\ gpo_fields false (n_data a) fs /\ ~ absent 0x82 fs /\ absent 0x94 fs).
Proof.
  intros Bd E. unfold get_processing_options in E. destruct (match data with Some _ => _ | None => _ end) eqn:El; [injection E as <- <- <- <- <-; split; discriminate|].
  pose proof W as (_ & _ & _ & Wg). specialize (Wg s data Bd). apply bind_Ret_inv in E as (a & Ea & E). rewrite Ea in Wg.
  destruct (Z.eqb_spec (n_ret a) 0) as [R0|R0]; cbn [negb] in E; [|injection E as <- <- <- <- <-; split; discriminate].
  destruct (Z.eqb_spec (n_sw a) 0x9000) as [S9|S9]; cbn [negb] in E; [|injection E as <- <- <- <- <-; split; discriminate].
  destruct (Wg R0) as [Ba La]. apply bind_Ret_inv in E as ([r1 t] & D & E).
  destruct (r1 <=? 0); [injection E as <- <- <- <- <-; split; discriminate|]. destruct t as [t|]; [|discriminate]. fold (gpo_parse t) in E.
  destruct (gpo_parse_spec _ r1 t Ba La D) as [(fs & Ep & Hf)|[Ep Hn]]; rewrite Ep in E; cbn [bind] in E; [|injection E as <- <- <- <- <-; split; discriminate].
  destruct (find_tag 0x82 fs) as [f|] eqn:E82; [|injection E as <- <- <- <- <-; split; discriminate].
  destruct (find_tag 0x94 fs) as [g|] eqn:E94; injection E as <- <- <- <- <-; (split; [discriminate|]); [discriminate|]. intros _. split; [reflexivity|].
  exists a, fs. split; [auto|]. split; [auto|]. destruct Hf as [[G _]|[-> _]]; [|discriminate]. split; [auto|]. split; [|now apply find_tag_none].
  intro K. apply find_tag_none in K. congruence.
Qed.
Lemma read_pse_ends s supported apps n : Forall wf_field supported ->
  x_select x s EMV_PSE <> NoFuel ->
  (forall a sfi, x_select x s EMV_PSE = Ret a -> is_byte sfi ->
     (exists recs s', directory x sfi (n_st a) 1 recs s' /\ (length recs <= n)%nat) \/
     (exists k s', directory_fails x sfi (n_st a) 1 k s' /\ (k <= n)%nat)) ->
  exists r apps' s', read_pse x junk (S n) s supported apps = Ret (r, apps', s').
Proof.
  intros Ws Ne Hd. pose proof W as (W1 & _). pose proof (W1 s EMV_PSE pse_bytes) as G.
  destruct (x_select x s EMV_PSE) as [a| |] eqn:E; [|contradiction|contradiction].
  destruct (read_pse_status (S n) s supported apps a E) as [K1 K2].
  destruct (Z.eq_dec (n_ret a) 0) as [R0|R0]; [|rewrite (K1 R0); eauto].
  destruct (Z.eq_dec (n_sw a) 0x9000) as [S9|S9]; [|destruct (K2 R0 S9) as (r & _ & ->); eauto].
  destruct (read_pse_directory (S n) s supported apps a Ws E R0 S9) as (pse & Ff & _ & Q1 & Q2 & Q3).
  destruct (find_tag 0x88 pse) as [f|] eqn:Ef.
  2:{ apply find_tag_none in Ef. rewrite (Q1 Ef). eauto. }
  apply find_tag_spec in Ef. destruct (Z.eq_dec (Zlen (f_val f)) 1) as [L1|L1]; [|rewrite (Q2 f Ef L1); eauto].
  destruct (f_val f) as [|sfi [|? ?]] eqn:Ev; try (unfold Zlen in L1; cbn [length] in L1; lia).
  destruct (Q3 f sfi Ef Ev) as (Q4 & Q5 & _).
  assert (Bs : is_byte sfi).
  { destruct (G R0) as [Bd Ld]. assert (Wf : wf_field f).
    { rewrite Forall_forall in Ff. pose proof (Ff f (first_with_in _ _ _ Ef)) as Q. revert Q. apply field_of_wf; auto. now apply small256. }
    destruct Wf as (_ & Bf & _). rewrite Ev in Bf. now inversion Bf. }
  destruct (Hd a sfi eq_refl Bs) as [(recs & s' & D & L)|(k & s' & D & L)].
  - destruct (Q4 recs s' D ltac:(lia)) as (ls & _ & ->). eauto.
  - rewrite (Q5 k s' D ltac:(lia)). eauto.
Qed.
End Top.
