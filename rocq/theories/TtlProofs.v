(** Proofs about the transport layer. *)
From Verif Require Import Base BaseLemmas BerSpec BerProofs TtlModel TtlSpec.

(** ** Command cases *)
Definition case_num (k : acase) : Z :=
  match k with A1 => 0 | A2S => 1 | A2E => 2 | A3S => 3 | A3E => 4 | A4S => 5 | A4E => 6 end.

Lemma be2 a b : be [a; b] = a * 256 + b.
Proof. unfold be; cbn. lia. Qed.

Lemma split4 (c : list Z) : (4 <= length c)%nat -> exists h r, c = h ++ r /\ length h = 4%nat.
Proof.
  intros H. exists (firstn 4 c), (skipn 4 c). split; [symmetry; apply firstn_skipn|].
  rewrite firstn_length_le; lia.
Qed.

Lemma rd4 (h : list Z) x r : length h = 4%nat -> rd (h ++ x :: r) 4 = Ret x.
Proof. intros. now apply rd_app_mid. Qed.

Lemma list_snoc (l : list Z) : l <> [] -> exists a x, l = a ++ [x].
Proof. intros H. exists (removelast l), (last l 0). now apply app_removelast_last. Qed.

Lemma apdu_case_total c : bytes c -> exists k, apdu_case c = Ret k.
Proof.
  intros Hb. unfold apdu_case.
  destruct (Z.ltb_spec (Zlen c) 4); [eauto|]. destruct (Z.eqb_spec (Zlen c) 4); [eauto|].
  destruct (Z.eqb_spec (Zlen c) 5); [eauto|].
  destruct (rd_total c 4 ltac:(lia)) as [c5 ->]; cbn [bind].
  destruct (Z.eqb_spec c5 0); cbn [negb].
  - destruct (Z.eqb_spec (Zlen c) 7); [eauto|]. destruct (Z.ltb_spec 7 (Zlen c)); [|eauto].
    destruct (rd_total c 6 ltac:(lia)) as [c6 ->]; cbn [bind].
    destruct (rd_total c 7 ltac:(lia)) as [c7 ->]; cbn [bind].
    destruct (_ =? 0); cbn [negb]; [eauto|]. destruct (_ =? Zlen c); [eauto|]. destruct (_ =? Zlen c); eauto.
  - destruct (_ =? Zlen c); [eauto|]. destruct (_ =? Zlen c); eauto.
Qed.

(** Short commands and 2E: classification is exact. *)
Lemma command_shape k c : command k c -> exists h r, c = h ++ r /\ length h = 4%nat /\
  match k with
  | A1 => Zlen r = 0 | A2S => Zlen r = 1
  | A2E => Zlen r = 3 /\ hd 0 r = 0
  | A3S => Zlen r = 1 + hd 0 r /\ 1 <= hd 0 r
  | A4S => Zlen r = 2 + hd 0 r /\ 1 <= hd 0 r
  | A3E => hd 0 r = 0 /\ 4 <= Zlen r
  | A4E => hd 0 r = 0 /\ 6 <= Zlen r
  end.
Proof.
  intros Hk. inversion Hk; subst.
  { exists c, []. rewrite app_nil_r. auto. }
  all: eexists h, _; split; [reflexivity|split; [assumption|]]; cbn [app hd]; auto;
    unfold Zlen in *; cbn [length]; rewrite ?app_length; cbn [length]; lia.
Qed.

Lemma apdu_case_short c : bytes c -> (Zlen c <= 7 \/ nth 4 c 0 <> 0) ->
  exists r, apdu_case c = Ret r /\
   (forall k, command k c -> r = case_num k) /\
   ((forall k, ~ command k c) -> r < 0).
Proof.
  intros Hb Hs. unfold apdu_case.
  destruct (Z.ltb_spec (Zlen c) 4) as [H4|H4].
  { eexists; split; [reflexivity|]. split; [|lia]. intros k Hk. apply command_shape in Hk.
    destruct Hk as (h & r & -> & Hh & _). rewrite Zlen_app in H4. unfold Zlen in H4. lia. }
  destruct (split4 c ltac:(lia)) as (h & r & -> & Hh).
  assert (INV : forall k, command k (h ++ r) -> match k with
    | A1 => Zlen r = 0 | A2S => Zlen r = 1
    | A2E => Zlen r = 3 /\ hd 0 r = 0
    | A3S => Zlen r = 1 + hd 0 r /\ 1 <= hd 0 r
    | A4S => Zlen r = 2 + hd 0 r /\ 1 <= hd 0 r
    | A3E => hd 0 r = 0 /\ 4 <= Zlen r
    | A4E => hd 0 r = 0 /\ 6 <= Zlen r
    end).
  { intros k Hk. apply command_shape in Hk. destruct Hk as (h' & r' & E & Hh' & Hx).
    assert (E2 : skipn 4 (h ++ r) = skipn 4 (h' ++ r')) by congruence.
    rewrite !skipn_app_eq in E2 by auto. subst r'. exact Hx. }
  rewrite Zlen_app in *. replace (Zlen h) with 4 in * by (unfold Zlen; lia).
  assert (L : forall (x : Z) l, Zlen (x :: l) = 1 + Zlen l) by (intros; unfold Zlen; cbn [length]; lia).
  assert (LN : forall l : list Z, 0 <= Zlen l) by (intros; unfold Zlen; lia).
  destruct (Z.eqb_spec (4 + Zlen r) 4) as [E4|E4].
  { eexists; split; [reflexivity|].
    assert (r = []) by (destruct r; auto; rewrite L in E4; specialize (LN r); lia). subst. split.
    - intros k Hk. apply INV in Hk. unfold Zlen in Hk. cbn in Hk. destruct k; auto; lia.
    - intros Hn. exfalso. apply (Hn A1). rewrite app_nil_r. now constructor. }
  destruct r as [|c5 r]; [contradiction E4; reflexivity|]. cbn [hd] in INV.
  assert (Hc5 : 0 <= c5 < 256).
  { apply bytes_app in Hb. destruct Hb as [_ Hb]. inversion Hb; subst; auto. }
  rewrite app_nth2 in Hs by lia. replace (4 - length h)%nat with 0%nat in Hs by lia. cbn [nth] in Hs.
  rewrite rd4 by auto. rewrite L in *. pose proof (LN r).
  assert (INV' : forall k, command k (h ++ c5 :: r) -> match k with
    | A1 => False | A2S => Zlen r = 0
    | A2E => Zlen r = 2 /\ c5 = 0
    | A3S => Zlen r = c5 /\ 1 <= c5
    | A4S => Zlen r = 1 + c5 /\ 1 <= c5
    | A3E => c5 = 0 /\ 3 <= Zlen r
    | A4E => c5 = 0 /\ 5 <= Zlen r
    end) by (intros k Hk; apply INV in Hk; destruct k; lia).
  clear INV.
  destruct (Z.eqb_spec (4 + (1 + Zlen r)) 5).
  { eexists; split; [reflexivity|].
    assert (r = []) by (destruct r; auto; rewrite L in *; specialize (LN r); lia). subst. split.
    - intros k Hk. apply INV' in Hk. destruct k; auto; lia.
    - intros Hn. exfalso. apply (Hn A2S). now constructor. }
  cbn [bind]. destruct (Z.eqb_spec c5 0) as [->|Hz]; cbn [negb].
  - destruct (Z.eqb_spec (4 + (1 + Zlen r)) 7) as [H7|H7].
    + eexists; split; [reflexivity|]. destruct r as [|a [|b [|x r]]]; try (rewrite ?L in *; pose proof (LN r); lia);
        try (cbn in H7; lia).
      split.
      * intros k Hk. apply INV' in Hk. destruct k; auto; lia.
      * intros Hn. exfalso. apply (Hn A2E). now constructor.
    + destruct (Z.ltb_spec 7 (4 + (1 + Zlen r))); [lia|]. eexists; split; [reflexivity|]. split; [|lia].
      intros k Hk. apply INV' in Hk. destruct k; lia.
  - destruct (Z.eqb_spec (5 + c5) (4 + (1 + Zlen r))) as [H3|H3].
    + eexists; split; [reflexivity|]. split.
      * intros k Hk. apply INV' in Hk. destruct k; auto; lia.
      * intros Hn. exfalso. apply (Hn A3S). replace c5 with (Zlen r) by lia. apply cmd_3s; auto. lia.
    + destruct (Z.eqb_spec (6 + c5) (4 + (1 + Zlen r))) as [H6|H6].
      * eexists; split; [reflexivity|]. split.
        -- intros k Hk. apply INV' in Hk. destruct k; auto; lia.
        -- intros Hn. exfalso. apply (Hn A4S). destruct (list_snoc r) as (d & le & ->).
           { intros ->. change (Zlen (@nil Z)) with 0 in H6. lia. }
           rewrite Zlen_app in *. replace (Zlen [le]) with 1 in * by reflexivity.
           replace c5 with (Zlen d) by lia. apply cmd_4s; auto. lia.
      * eexists; split; [reflexivity|]. split; [|lia].
        intros k Hk. apply INV' in Hk. destruct k; lia.
Qed.

Lemma cmd_case_short k c : bytes c -> command k c -> (k = A1 \/ k = A2S \/ k = A3S \/ k = A4S) ->
  apdu_case c = Ret (case_num k).
Proof.
  intros Hb Hk Hs. destruct (apdu_case_short c Hb) as (r & E & H & _).
  - apply command_shape in Hk. destruct Hk as (h & r & -> & Hh & Hx).
    rewrite Zlen_app, app_nth2 by lia. replace (4 - length h)%nat with 0%nat by lia.
    destruct Hs as [->|[->|[->| ->]]]; try (left; unfold Zlen in *; lia).
    + right. destruct r; cbn [nth hd] in *; lia.
    + right. destruct r; cbn [nth hd] in *; lia.
  - rewrite E. f_equal. auto.
Qed.

(** What a successful short classification says about the command. *)
Lemma apdu_case_len c cs : apdu_case c = Ret cs ->
  (cs = CASE_1 -> length c = 4%nat) /\ (cs = CASE_2S -> length c = 5%nat) /\
  (cs = CASE_3S \/ cs = CASE_4S -> (6 <= length c)%nat).
Proof.
  unfold apdu_case, CASE_1, CASE_2S, CASE_3S, CASE_4S, CASE_2E, CASE_3E, CASE_4E.
  destruct (Z.ltb_spec (Zlen c) 4); [intros E; inversion E; lia|].
  destruct (Z.eqb_spec (Zlen c) 4); [intros E; inversion E; lia|].
  destruct (Z.eqb_spec (Zlen c) 5); [intros E; inversion E; lia|].
  destruct (rd_total c 4 ltac:(lia)) as [c5 ->]; cbn [bind].
  destruct (Z.eqb_spec c5 0); cbn [negb].
  - destruct (Z.eqb_spec (Zlen c) 7); [intros E; inversion E; lia|].
    destruct (Z.ltb_spec 7 (Zlen c)); [|intros E; inversion E; lia].
    destruct (rd_total c 6 ltac:(lia)) as [c6 ->]; cbn [bind].
    destruct (rd_total c 7 ltac:(lia)) as [c7 ->]; cbn [bind].
    destruct (_ =? 0); cbn [negb]; [intros E; inversion E; lia|].
    destruct (_ =? Zlen c); [intros E; inversion E; lia|].
    destruct (_ =? Zlen c); intros E; inversion E; lia.
  - destruct (_ =? Zlen c); [intros E; inversion E; lia|].
    destruct (_ =? Zlen c); intros E; inversion E; lia.
Qed.

(** ** Buffer safety *)
Section Safe.
Context {S : Type} (card : cardfn S) (md : mode) (mem : list Z) (clen : nat) (cs : Z) (size : nat).
Hypothesis Hmem : bytes mem.
Hypothesis Hcard : respects_buffer card.
Hypothesis Hbytes : forall s tx, bytes (snd (snd (card s tx))).
Hypothesis Hc4 : (4 <= clen <= length mem)%nat.

(** [room] is 0 for a strict reading of the command, 255 if that many octets
    behind it are readable. *)
Definition ptr_ok (v : tvars S) : Prop :=
  (t_data v = None \/
   exists d, t_data v = Some d /\ (d < clen)%nat /\ (cs = CASE_3S \/ cs = CASE_4S) /\
             (clen + 255 <= length mem)%nat) /\
  (t_tx v = TxHdr /\ t_txlen v = 5%nat \/
   exists off, t_tx v = TxCmd off /\ (off + t_txlen v <= length mem)%nat /\ (off + 4 <= length mem)%nat).

Definition buf_ok (v : tvars S) : Prop :=
  length (t_r v) = size /\ Z.of_nat (t_rpos v) + t_rlen v = Z.of_nat size /\ 2 <= t_rlen v.

Definition tinv (v : tvars S) : Prop :=
  length (t_hdr v) = 5%nat /\ bytes (t_hdr v) /\ ptr_ok v /\ buf_ok v.

Definition tfin (t : tres S) : Prop :=
  length (o_buf t) = size /\ 0 <= o_len t <= Z.of_nat size.

Lemma tx_mem_total v i n : tinv v -> (i + n <= t_txlen v \/ i + n <= 4)%nat ->
  exists tx, tx_mem mem (t_hdr v) (t_tx v) i n = Ret tx /\ bytes tx /\ length tx = n.
Proof.
  intros (Hh & Hhb & [_ Hp] & _) Hi. unfold tx_mem.
  destruct Hp as [[-> Hl]|(off & -> & H1 & H2)].
  - rewrite sub_Ret by lia. eexists. split; [reflexivity|]. split; [auto|].
    rewrite firstn_length_le; auto. rewrite skipn_length. lia.
  - rewrite sub_Ret by lia. eexists. split; [reflexivity|]. split; [auto|].
    rewrite firstn_length_le; auto. rewrite skipn_length. lia.
Qed.

Lemma proc_ok v s ins b : tinv v -> exists i, trx_procedure clen cs v s ins b = Ret i /\
  match i with Again v' => tinv v' | Done t => tfin t end.
Proof.
  intros Hi. pose proof Hi as (Hh & Hhb & [Hd Hp] & HL & Hpos & Hr). unfold trx_procedure.
  assert (F : forall code, exists i, (let* r' := put (t_r v) 0 [b] in
      Ret (Done (mkR code r' 1 (t_sw v) s))) = Ret i /\
      match i with Again v' => tinv v' | Done t => tfin t end).
  { intros code. rewrite put_Ret by (cbn [length]; lia). cbn [bind].
    eexists. split; [reflexivity|]. cbn [tfin]. unfold tfin; cbn [o_buf o_len]. split; [|lia].
    cbn [firstn app length]. rewrite skipn_length. cbn [length]. lia. }
  destruct (b =? 0x60); [apply F|]. destruct (b =? ins).
  - destruct (t_data v) as [d|]; [|apply F].
    destruct Hd as [Hd|(d' & Hd & Hd2 & Hd3 & Hd4)]; [discriminate|]. inversion Hd; subst d'.
    destruct (rd_total (t_hdr v) 4 ltac:(lia)) as [h4 E4]. rewrite E4; cbn [bind].
    assert (is_byte h4) by (eapply rd_byte; eauto). unfold is_byte in *.
    eexists. split; [reflexivity|].
    repeat (split; cbn [t_hdr t_data t_tx t_txlen t_r t_rpos t_rlen]; auto).
    right. exists d. split; [auto|]. lia.
  - destruct (b =? Z.lxor ins 255); [|apply F].
    destruct (t_data v) as [d|]; [|apply F].
    destruct Hd as [Hd|(d' & Hd & Hd2 & Hd3 & Hd4)]; [discriminate|]. inversion Hd; subst d'.
    eexists. split; [reflexivity|].
    split; [auto|]. split; [auto|]. split; [|split; [|split]; cbn [t_r t_rpos t_rlen]; auto].
    split; cbn [t_data t_tx t_txlen].
    + destruct ((cs =? CASE_3S) && Nat.leb clen (d + 1))%bool eqn:E3; [auto|].
      destruct ((cs =? CASE_4S) && Nat.leb (clen - 1) (d + 1))%bool eqn:E4; [auto|].
      right. exists (d + 1)%nat. split; [auto|]. split; [|auto].
      unfold CASE_3S, CASE_4S in *. lia.
    + right. exists d. split; [auto|]. lia.
Qed.

Lemma copy_ok v ins rx : tinv v -> (2 <= length rx)%nat ->
  exists c, trx_copy md cs v ins rx = Ret c /\
   match c with
   | inr _ => True
   | inl v' => tinv v' /\ t_card v' = t_card v /\ t_hdr v' = t_hdr v /\ t_tx v' = t_tx v /\
               t_txlen v' = t_txlen v /\ t_sw v' = t_sw v /\ t_data v' = t_data v
   end.
Proof.
  intros Hi Hrx. pose proof Hi as (Hh & Hhb & Hptr & HL & Hpos & Hr). unfold trx_copy. destruct md.
  - destruct (Z.ltb_spec 2 (Zlen rx)); [|eexists; split; [reflexivity|cbv beta iota; auto 10]].
    destruct (negb (case_2_4 cs)); [eexists; split; [reflexivity|exact I]|].
    destruct (Z.ltb_spec (t_rlen v) (Zlen rx)); [eexists; split; [reflexivity|exact I]|].
    rewrite sub_Ret by lia. cbn [bind skipn].
    assert (Hl : length (firstn (length rx - 2) rx) = (length rx - 2)%nat) by (rewrite firstn_length_le; lia).
    rewrite put_Ret by lia. cbn [bind].
    eexists; split; [reflexivity|]. split; [|cbn; auto 10]. split; [auto|]. split; [auto|]. split; [exact Hptr|].
    split; [|split]; cbn [t_r t_rpos t_rlen].
    + rewrite !app_length, firstn_length_le, skipn_length by lia. lia.
    + lia.
    + lia.
  - destruct (Z.ltb_spec 3 (Zlen rx)); [|eexists; split; [reflexivity|cbv beta iota; auto 10]].
    destruct (negb (case_2_4 cs)); [eexists; split; [reflexivity|exact I]|].
    destruct (rd_total rx 0 ltac:(lia)) as [b0 ->]; cbn [bind].
    destruct (negb (b0 =? ins)); [eexists; split; [reflexivity|exact I]|].
    destruct (Z.ltb_spec (t_rlen v) (Zlen rx - 1)); [eexists; split; [reflexivity|exact I]|].
    rewrite sub_Ret by lia. cbn [bind].
    assert (Hl : length (firstn (length rx - 3) (skipn 1 rx)) = (length rx - 3)%nat)
      by (rewrite firstn_length_le; auto; rewrite skipn_length; lia).
    rewrite put_Ret by lia. cbn [bind].
    eexists; split; [reflexivity|]. split; [|cbn; auto 10]. split; [auto|]. split; [auto|]. split; [exact Hptr|].
    split; [|split]; cbn [t_r t_rpos t_rlen].
    + rewrite !app_length, firstn_length_le, skipn_length by lia. lia.
    + lia.
    + lia.
Qed.

Lemma step_ok v : tinv v -> exists i, trx_step card md mem clen cs v = Ret i /\
  match i with Again v' => tinv v' | Done t => tfin t end.
Proof.
  intros Hi. pose proof Hi as (Hh & Hhb & [Hd Hp] & HL & Hpos & Hr). unfold trx_step.
  destruct (tx_mem_total v 0 (t_txlen v) Hi ltac:(lia)) as (tx & -> & _ & _). cbn [bind].
  pose proof (Hcard (t_card v) tx) as Hc. pose proof (Hbytes (t_card v) tx) as Hcb.
  destruct (card (t_card v) tx) as [s [r rx]]. cbn [snd] in *.
  destruct (Nat.ltb_spec 258 (length rx)); [lia|].
  assert (LV : forall code sw, exists i, Ret (Done (mkR code (t_r v) (t_rlen v) sw s)) = Ret i /\
      match i with Again v' => tinv v' | Done t => tfin t end).
  { intros. eexists. split; [reflexivity|]. unfold tfin; cbn [o_buf o_len]. lia. }
  destruct (negb (r =? 0)); [apply LV|].
  destruct (Nat.eqb_spec (length rx) 0); [apply LV|].
  destruct (tx_mem_total v 1 1 Hi ltac:(lia)) as (insl & -> & _ & _). cbn [bind].
  assert (E1 : exists sw1, (if Nat.ltb 1 (length rx) then rd rx (length rx - 2) else rd rx 0) = Ret sw1 /\ is_byte sw1).
  { destruct (Nat.ltb_spec 1 (length rx)).
    - destruct (rd_total rx (length rx - 2) ltac:(lia)) as [b Eb]. exists b. split; auto. eapply rd_byte; eauto.
    - destruct (rd_total rx 0 ltac:(lia)) as [b Eb]. exists b. split; auto. eapply rd_byte; eauto. }
  destruct E1 as (sw1 & -> & Hsw1). cbn [bind].
  assert (E2 : exists sw2, (if Nat.ltb 1 (length rx) then rd rx (length rx - 1) else Ret 255) = Ret sw2 /\ is_byte sw2).
  { destruct (Nat.ltb_spec 1 (length rx)).
    - destruct (rd_total rx (length rx - 1) ltac:(lia)) as [b Eb]. exists b. split; auto. eapply rd_byte; eauto.
    - exists 255. split; auto. unfold is_byte; lia. }
  destruct E2 as (sw2 & -> & Hsw2). cbn [bind].
  destruct (cs =? CASE_1).
  { destruct (Nat.eqb_spec (length rx) 2); cbn [negb].
    - rewrite put_Ret by lia. cbn [bind]. eexists. split; [reflexivity|].
      unfold tfin; cbn [o_buf o_len]. cbn [firstn app]. rewrite app_length, skipn_length. lia.
    - eexists. split; [reflexivity|]. unfold tfin; cbn [o_buf o_len]. lia. }
  destruct (Nat.eqb_spec (length rx) 1); [now apply proc_ok|].
  match goal with |- context [match ?st with inl _ => _ | inr _ => _ end] =>
    destruct st as [[[gr ul] sw]|code]; [|apply LV] end.
  destruct (copy_ok v (hd 0 insl) rx Hi ltac:(lia)) as (c & -> & Hcc). cbn [bind].
  destruct c as [v'|code]; [|apply LV].
  destruct Hcc as (Hi' & _ & _ & _ & _ & _ & _).
  pose proof Hi' as (Hh' & Hhb' & [Hd' Hp'] & HL' & Hpos' & Hr').
  assert (LE : is_byte (if ((sw1 =? 97) || (sw1 =? 98) && (2 <=? sw2) && (sw2 <=? 128))%bool then sw2 else 0)).
  { destruct (_ || _)%bool; auto. unfold is_byte; lia. }
  destruct gr.
  - eexists. split; [reflexivity|]. split; [reflexivity|].
    split. { repeat (apply bytes_cons; [solve [unfold is_byte; lia|exact LE]|]). constructor. }
    split; [|split; [|split]; cbn [t_r t_rpos t_rlen]; auto].
    split; cbn [t_data t_tx t_txlen]; auto.
  - destruct ul.
    + destruct (tx_mem_total v 0 4 Hi ltac:(lia)) as (h & -> & Hhh & Hhl). cbn [bind].
      eexists. split; [reflexivity|]. split; [cbn [t_hdr]; rewrite app_length; cbn [length]; lia|].
      split. { cbn [t_hdr]. apply bytes_app_intro; auto. }
      split; [|split; [|split]; cbn [t_r t_rpos t_rlen]; auto].
      split; cbn [t_data t_tx t_txlen]; auto.
    + rewrite put_Ret by (cbn [length]; lia). cbn [bind]. eexists. split; [reflexivity|].
      unfold tfin; cbn [o_buf o_len]. rewrite !app_length, skipn_length, firstn_length_le by lia.
      cbn [length]. lia.
Qed.

Lemma loop_ok fuel : forall v, tinv v ->
  match trx_loop card md mem clen cs fuel v with UB => False | NoFuel => True | Ret t => tfin t end.
Proof.
  induction fuel as [|fuel IH]; intros v Hi; cbn [trx_loop]; auto.
  destruct (step_ok v Hi) as (i & -> & H). cbn [bind]. destruct i; auto. now apply IH.
Qed.
End Safe.

(** [safe r o]: no undefined behaviour, and on return the buffer still has its
    size and the length reported is inside it. *)
Definition safe {S} (r : list Z) (o : out (tres S)) : Prop :=
  match o with
  | UB => False
  | NoFuel => True
  | Ret t => length (o_buf t) = length r /\ 0 <= o_len t <= Zlen r
  end.

Lemma trx_safe {S} fuel (card : cardfn S) md s cmd tail r sw0 :
  respects_buffer card -> (forall s tx, bytes (snd (snd (card s tx)))) ->
  bytes cmd -> bytes tail -> (2 <= length r)%nat ->
  (md = ModeApdu \/ (length cmd <= 5)%nat \/ (255 <= length tail)%nat) ->
  safe r (ttl_trx fuel card md s cmd tail r sw0).
Proof.
  intros Hc Hb Hcb Htb Hr Hm. unfold ttl_trx.
  destruct (Nat.eqb_spec (length cmd) 0) as [E0|E0]; cbn [orb]; [unfold safe; cbn [o_buf o_len]; lia|].
  destruct (Nat.eqb_spec (length r) 0); [lia|].
  destruct (apdu_case_total cmd Hcb) as [cs Ecs]. rewrite Ecs. cbn [bind].
  apply apdu_case_len in Ecs. destruct Ecs as (L1 & L2 & L3).
  destruct (negb _) eqn:En; [unfold safe; cbn [o_buf o_len]; lia|].
  assert (C : cs = CASE_1 \/ cs = CASE_2S \/ cs = CASE_3S \/ cs = CASE_4S) by
    (unfold CASE_1, CASE_2S, CASE_3S, CASE_4S in *; lia).
  assert (Hlm : (4 <= length cmd <= length (cmd ++ tail))%nat).
  { rewrite app_length. split; [|lia]. destruct C as [C|[C|[C|C]]]; [rewrite L1|rewrite L2|specialize (L3 (or_introl C))|specialize (L3 (or_intror C))]; auto; lia. }
  assert (LO : forall v, tinv (cmd ++ tail) (length cmd) cs (length r) v ->
    safe r (trx_loop card md (cmd ++ tail) (length cmd) cs fuel v)).
  { intros v Hv. pose proof (loop_ok card md (cmd ++ tail) (length cmd) cs (length r)
      (bytes_app_intro _ _ Hcb Htb) Hc Hb Hlm fuel v Hv) as H.
    unfold safe. destruct (trx_loop _ _ _ _ _ _ _); auto. }
  destruct md.
  - apply LO. repeat split; auto.
    + repeat constructor; unfold is_byte; lia.
    + right. exists 0%nat. cbn. split; [reflexivity|lia].
    + cbn. lia.
  - assert (EH : exists h, (if cs =? CASE_1 then let* h := sub cmd 0 4 in Ret (h ++ [0]) else sub cmd 0 5) = Ret h
       /\ length h = 5%nat /\ bytes h).
    { destruct (Z.eqb_spec cs CASE_1) as [C1|C1].
      - rewrite sub_Ret by lia. cbn [bind]. eexists; split; [reflexivity|].
        split; [rewrite app_length, firstn_length_le; auto; rewrite skipn_length; lia|].
        apply bytes_app_intro; auto. apply bytes_one. unfold is_byte; lia.
      - assert (5 <= length cmd)%nat.
        { destruct C as [C|[C|[C|C]]]; [contradiction|rewrite L2|specialize (L3 (or_introl C))|specialize (L3 (or_intror C))]; auto; lia. }
        rewrite sub_Ret by lia. eexists; split; [reflexivity|].
        split; [rewrite firstn_length_le; auto; rewrite skipn_length; lia|auto]. }
    destruct EH as (h & -> & Hhl & Hhb). cbn [bind]. apply LO.
    split; [auto|]. split; [auto|]. split.
    + split; cbn [t_data t_tx t_txlen]; auto.
      destruct ((cs =? CASE_3S) || (cs =? CASE_4S))%bool eqn:E34; auto.
      assert (C34 : cs = CASE_3S \/ cs = CASE_4S) by (unfold CASE_3S, CASE_4S in *; lia).
      specialize (L3 C34). right. exists 5%nat. split; [auto|]. split; [lia|]. split; [auto|].
      rewrite app_length. destruct Hm as [Hm|[Hm|Hm]]; [discriminate|lia|lia].
    + repeat split; cbn; lia.
Qed.

(** ** What is sent *)
Definition card_of {S} (i : titer S) : S := match i with Again v => t_card v | Done t => o_card t end.

(** One iteration sends exactly what [tx_buf] points to. *)
Lemma step_sends {S} (card : cardfn S) md mem clen cs v i :
  trx_step card md mem clen cs v = Ret i ->
  exists tx, tx_mem mem (t_hdr v) (t_tx v) 0 (t_txlen v) = Ret tx /\
    card_of i = fst (card (t_card v) tx).
Proof.
  unfold trx_step. destruct (tx_mem _ _ _ 0 (t_txlen v)) as [tx| |]; cbn [bind]; try discriminate.
  intros H. exists tx. split; auto. destruct (card (t_card v) tx) as [s [r rx]]. cbn [fst].
  destruct (Nat.ltb 258 (length rx)); [discriminate|].
  destruct (negb (r =? 0)); [inv_ret H; reflexivity|].
  destruct (Nat.eqb (length rx) 0); [inv_ret H; reflexivity|].
  destruct (tx_mem _ _ _ 1 1) as [insl| |]; cbn [bind] in H; try discriminate.
  destruct (if Nat.ltb 1 (length rx) then rd rx (length rx - 2) else rd rx 0) as [sw1| |]; cbn [bind] in H; try discriminate.
  destruct (if Nat.ltb 1 (length rx) then rd rx (length rx - 1) else Ret 255) as [sw2| |]; cbn [bind] in H; try discriminate.
  destruct (cs =? CASE_1).
  { destruct (negb _); [inv_ret H; reflexivity|].
    destruct (put _ _ _); cbn [bind] in H; try discriminate. inv_ret H; reflexivity. }
  destruct (Nat.eqb (length rx) 1).
  { unfold trx_procedure in H.
    repeat match type of H with
    | (let* _ := ?m in _) = _ => destruct m; cbn [bind] in H; try discriminate
    | (if ?b then _ else _) = _ => destruct b
    | match ?m with _ => _ end = _ => destruct m
    end; inv_ret H; reflexivity. }
  match type of H with match ?st with inl _ => _ | inr _ => _ end = _ =>
    destruct st as [[[gr ul] sw]|code]; [|inv_ret H; reflexivity] end.
  destruct (trx_copy _ _ _ _ _) as [c| |]; cbn [bind] in H; try discriminate.
  destruct c as [v'|code]; [|inv_ret H; reflexivity].
  destruct gr; [inv_ret H; reflexivity|]. destruct ul.
  - destruct (tx_mem _ _ _ 0 4); cbn [bind] in H; try discriminate. inv_ret H; reflexivity.
  - destruct (put _ _ _); cbn [bind] in H; try discriminate. inv_ret H; reflexivity.
Qed.

(** How an iteration goes on. *)
Lemma step_next {S} (card : cardfn S) md mem clen cs v v' :
  trx_step card md mem clen cs v = Ret (Again v') ->
  (t_data v = None -> t_data v' = None) /\
  (t_tx v' = TxHdr /\ t_txlen v' = 5%nat /\
     ((exists x, t_hdr v' = [0; 0xC0; 0; 0; x]) \/
      (exists h x, tx_mem mem (t_hdr v) (t_tx v) 0 4 = Ret h /\ t_hdr v' = h ++ [x])) \/
   exists d, t_data v = Some d).
Proof.
  unfold trx_step. destruct (tx_mem _ _ _ 0 (t_txlen v)) as [tx| |]; cbn [bind]; try discriminate.
  intros H. destruct (card (t_card v) tx) as [s [r rx]].
  destruct (Nat.ltb 258 (length rx)); [discriminate|].
  destruct (negb (r =? 0)); [discriminate|].
  destruct (Nat.eqb (length rx) 0); [discriminate|].
  destruct (tx_mem _ _ _ 1 1) as [insl| |]; cbn [bind] in H; try discriminate.
  destruct (if Nat.ltb 1 (length rx) then rd rx (length rx - 2) else rd rx 0) as [sw1| |]; cbn [bind] in H; try discriminate.
  destruct (if Nat.ltb 1 (length rx) then rd rx (length rx - 1) else Ret 255) as [sw2| |]; cbn [bind] in H; try discriminate.
  destruct (cs =? CASE_1).
  { destruct (negb _); [discriminate|].
    destruct (put _ _ _); cbn [bind] in H; discriminate. }
  destruct (Nat.eqb (length rx) 1).
  { unfold trx_procedure in H. destruct (t_data v) as [d|].
    - split; [discriminate|right; eauto].
    - repeat match type of H with
      | (let* _ := ?m in _) = _ => destruct m; cbn [bind] in H; try discriminate
      | (if ?b then _ else _) = _ => destruct b
      end; discriminate. }
  match type of H with match ?st with inl _ => _ | inr _ => _ end = _ =>
    destruct st as [[[gr ul] sw]|code]; [|discriminate] end.
  destruct (trx_copy _ _ _ _ _) as [c| |] eqn:Ec; cbn [bind] in H; try discriminate.
  destruct c as [w|code]; [|discriminate].
  assert (Hw : t_data w = t_data v).
  { unfold trx_copy in Ec. destruct md;
    repeat match type of Ec with
    | (let* _ := ?m in _) = _ => destruct m; cbn [bind] in Ec; try discriminate
    | (if ?b then _ else _) = _ => destruct b
    end; try discriminate; inv_ret Ec; reflexivity. }
  destruct gr.
  - inv_ret H. cbn. split; [congruence|]. left. repeat split; eauto.
  - destruct ul.
    + destruct (tx_mem _ _ _ 0 4) as [h| |] eqn:Eh; cbn [bind] in H; try discriminate.
      inv_ret H. cbn. split; [congruence|]. left. repeat split; eauto.
    + destruct (put _ _ _); cbn [bind] in H; discriminate.
Qed.

Lemma loop_log {S} (card : cardfn S) md mem clen cs fuel : forall v t,
  trx_loop (logged card) md mem clen cs fuel v = Ret t ->
  exists tx more, tx_mem mem (t_hdr v) (t_tx v) 0 (t_txlen v) = Ret tx /\
    snd (o_card t) = snd (t_card v) ++ tx :: more.
Proof.
  induction fuel as [|fuel IH]; intros v t H; [discriminate|]. cbn [trx_loop] in H.
  apply bind_Ret_inv in H. destruct H as (i & Hs & H).
  apply step_sends in Hs. destruct Hs as (tx & Etx & Hc).
  exists tx. unfold logged in Hc. destruct (t_card v) as [s log]. destruct (card s tx) as [s' r].
  cbn [fst snd] in *. destruct i as [v'|t']; cbn [card_of] in Hc.
  - apply IH in H. destruct H as (tx2 & more & _ & Hm). rewrite Hc in Hm. cbn [snd] in Hm.
    exists (tx2 :: more). split; auto. rewrite Hm, <- app_assoc. reflexivity.
  - inv_ret H. exists []. split; auto. now rewrite Hc.
Qed.

(** Commands that may follow in APDU mode: GET RESPONSE, or the command's header
    with a new Le. *)
Definition follow_up (cmd c : list Z) : Prop :=
  exists x, c = [0x00; 0xC0; 0x00; 0x00; x] \/ c = firstn 4 cmd ++ [x].

Lemma loop_follow {S} (card : cardfn S) md mem clen cs cmd fuel : forall v t tx,
  trx_loop (logged card) md mem clen cs fuel v = Ret t -> t_data v = None ->
  tx_mem mem (t_hdr v) (t_tx v) 0 (t_txlen v) = Ret tx ->
  (forall h, tx_mem mem (t_hdr v) (t_tx v) 0 4 = Ret h -> h = [0x00; 0xC0; 0x00; 0x00] \/ h = firstn 4 cmd) ->
  exists more, snd (o_card t) = snd (t_card v) ++ tx :: more /\ Forall (follow_up cmd) more.
Proof.
  induction fuel as [|fuel IH]; intros v t tx H Hd Etx Hf; [discriminate|]. cbn [trx_loop] in H.
  apply bind_Ret_inv in H. destruct H as (i & Hs & H). pose proof Hs as Hs'.
  apply step_sends in Hs. destruct Hs as (tx0 & Etx0 & Hc). rewrite Etx in Etx0. inv_ret Etx0.
  unfold logged in Hc. destruct (t_card v) as [s log]. destruct (card s tx0) as [s' r].
  cbn [fst snd] in *. destruct i as [v'|t']; cbn [card_of] in Hc.
  - apply step_next in Hs'. destruct Hs' as [Hd' [(E1 & E2 & E3)|(d & E1)]]; [|congruence].
    specialize (Hd' Hd).
    assert (FH : exists h x, t_hdr v' = h ++ [x] /\ length h = 4%nat /\ (h = [0x00; 0xC0; 0x00; 0x00] \/ h = firstn 4 cmd)).
    { destruct E3 as [[x ->]|(h & x & Eh & ->)].
      - exists [0;192;0;0], x. auto.
      - exists h, x. split; auto. split; [|now apply Hf].
        unfold tx_mem in Eh. destruct (t_tx v); now apply sub_length in Eh. }
    destruct FH as (h & x & Eh & Hl & Hh).
    assert (S4 : forall n w, sub (h ++ [x]) 0 n = Ret w -> w = firstn n (h ++ [x])).
    { intros n w Hw. apply sub_inv in Hw. cbn [skipn] in Hw. tauto. }
    assert (Etx' : tx_mem mem (t_hdr v') (t_tx v') 0 (t_txlen v') = Ret (h ++ [x])).
    { rewrite E1, E2, Eh. cbn [tx_mem]. rewrite sub_Ret by (rewrite app_length; cbn [length]; lia).
      cbn [skipn]. rewrite firstn_all2; auto. rewrite app_length; cbn [length]; lia. }
    apply (IH v' t (h ++ [x])) in H; auto.
    + destruct H as (more & Hm & HF). rewrite Hc in Hm. cbn [snd] in Hm.
      exists ((h ++ [x]) :: more). split; [rewrite Hm, <- app_assoc; reflexivity|].
      constructor; auto. exists x. destruct Hh as [-> | ->]; auto.
    + intros h' Eh'. rewrite E1, Eh in Eh'. cbn [tx_mem] in Eh'. apply S4 in Eh'.
      rewrite firstn_app_eq in Eh' by auto. subst h'. exact Hh.
  - inv_ret H. exists []. split; auto. now rewrite Hc.
Qed.

Lemma trx_log {S} fuel (card : cardfn S) md s log cmd tail r sw0 t :
  ttl_trx fuel (logged card) md (s, log) cmd tail r sw0 = Ret t -> (1 <= length r)%nat ->
  (exists k, (k = A2S \/ k = A3S \/ k = A4S) /\ command k cmd /\ bytes cmd) ->
  match md with
  | ModeApdu => exists more, snd (o_card t) = log ++ cmd :: more /\ Forall (follow_up cmd) more
  | ModeTpdu => exists more, snd (o_card t) = log ++ firstn 5 cmd :: more
  end.
Proof.
  intros H Hr (k & Hk & Hc & Hb). unfold ttl_trx in H.
  rewrite (cmd_case_short k cmd Hb Hc) in H by tauto.
  pose proof (cmd_case_short k cmd Hb Hc ltac:(tauto)) as Hcase. apply apdu_case_len in Hcase.
  destruct Hcase as (_ & L2 & L3).
  assert (Hl : (5 <= length cmd)%nat).
  { destruct Hk as [->|[->| ->]]; unfold CASE_2S, CASE_3S, CASE_4S in *; cbn [case_num] in *; lia. }
  destruct (Nat.eqb_spec (length cmd) 0); [lia|]. destruct (Nat.eqb_spec (length r) 0); [lia|].
  cbn [orb bind] in H.
  replace (negb _) with false in H by (destruct Hk as [->|[->| ->]]; reflexivity).
  destruct md.
  - apply (loop_follow card _ _ _ _ cmd fuel _ _ cmd) in H; cbn [t_data t_tx t_hdr t_txlen t_card snd] in *; auto.
    + cbn [tx_mem]. rewrite sub_Ret by (rewrite app_length; lia). cbn [Nat.add skipn].
      now rewrite firstn_length_app.
    + intros h Eh. cbn [tx_mem] in Eh. apply sub_inv in Eh. cbn [Nat.add skipn] in Eh.
      right. destruct Eh as [_ ->]. rewrite firstn_app. replace (4 - length cmd)%nat with 0%nat by lia.
      cbn [firstn]. now rewrite app_nil_r.
  - replace (case_num k =? CASE_1) with false in H by (destruct Hk as [->|[->| ->]]; reflexivity).
    rewrite sub_Ret in H by lia. cbn [bind skipn] in H.
    apply loop_log in H. cbn [t_data t_tx t_hdr t_txlen t_card snd tx_mem] in H.
    destruct H as (tx & more & Etx & Hm). exists more. rewrite Hm. f_equal. f_equal.
    apply sub_inv in Etx. destruct Etx as [_ ->]. cbn [skipn]. rewrite firstn_firstn. reflexivity.
Qed.

(** ** Chained responses in APDU mode *)
Section Chain.
Context {S : Type} (card : cardfn S) (mem : list Z) (clen : nat) (cs : Z).
Hypothesis Hcs : cs = CASE_2S \/ cs = CASE_4S.

(** The variables when [cur] is the command to send, [done] has been received and
    [room] is the rest of the response buffer. *)
Record at_cmd (v : tvars S) (cur done room : list Z) (sw : Z) : Prop := {
  ac_tx : tx_mem mem (t_hdr v) (t_tx v) 0 (t_txlen v) = Ret cur;
  ac_h : tx_mem mem (t_hdr v) (t_tx v) 0 4 = Ret (firstn 4 cur);
  ac_ins : exists l, tx_mem mem (t_hdr v) (t_tx v) 1 1 = Ret l;
  ac_len : (4 <= length cur)%nat;
  ac_r : t_r v = done ++ room;
  ac_pos : t_rpos v = length done;
  ac_rlen : t_rlen v = Zlen room;
  ac_sw : t_sw v = sw }.

Lemma hdr_at s h x data done room sw : length h = 4%nat ->
  at_cmd (mkT s (h ++ [x]) data TxHdr 5 (done ++ room) (length done) (Zlen room) sw) (h ++ [x]) done room sw.
Proof.
  intros Hh. split; cbn [t_hdr t_tx t_txlen t_r t_rpos t_rlen t_sw tx_mem]; auto.
  - rewrite sub_Ret by (rewrite app_length; cbn [length]; lia). cbn [skipn].
    rewrite firstn_all2; auto. rewrite app_length; cbn [length]; lia.
  - rewrite sub_Ret by (rewrite app_length; cbn [length]; lia). reflexivity.
  - eexists. rewrite sub_Ret by (rewrite app_length; cbn [length]; lia). reflexivity.
  - rewrite app_length; cbn [length]; lia.
Qed.

Lemma rd_sw1 (d : list Z) a b : rd (d ++ [a; b]) (length (d ++ [a; b]) - 2) = Ret a.
Proof. apply rd_app_mid. rewrite app_length; cbn [length]; lia. Qed.
Lemma rd_sw2 (d : list Z) a b : rd (d ++ [a; b]) (length (d ++ [a; b]) - 1) = Ret b.
Proof.
  replace (d ++ [a; b]) with ((d ++ [a]) ++ [b]) by (now rewrite <- app_assoc).
  apply rd_app_mid. rewrite !app_length; cbn [length]; lia.
Qed.

Lemma copy_apdu v cur done room sw ins d a b : at_cmd v cur done room sw -> Zlen d + 2 <= Zlen room ->
  exists w, trx_copy ModeApdu cs v ins (d ++ [a; b]) = Ret (inl w) /\
    t_r w = (done ++ d) ++ skipn (length d) room /\ t_rpos w = length (done ++ d) /\
    t_rlen w = Zlen (skipn (length d) room).
Proof.
  intros [] Hd. unfold trx_copy. destruct (Z.ltb_spec 2 (Zlen (d ++ [a; b]))) as [H2|H2].
  - replace (negb (case_2_4 cs)) with false
      by (unfold case_2_4, CASE_2S, CASE_4S in *; destruct Hcs as [->| ->]; reflexivity).
    rewrite ac_rlen0. rewrite Zlen_app in *. replace (Zlen [a; b]) with 2 in * by reflexivity.
    destruct (Z.ltb_spec (Zlen room) (Zlen d + 2)); [lia|].
    rewrite (sub_app [] d [a;b]) by (rewrite ?app_length; cbn [length]; lia). cbn [bind].
    rewrite ac_r0, ac_pos0. rewrite put_Ret by (rewrite app_length; lia). cbn [bind].
    eexists; split; [reflexivity|]. cbn [t_r t_rpos t_rlen].
    rewrite firstn_length_app, <- skipn_skipn', skipn_length_app, <- app_assoc, app_length.
    split; [auto|]. split; [auto|]. unfold Zlen. rewrite skipn_length. unfold Zlen in *. lia.
  - rewrite Zlen_app in H2. replace (Zlen [a; b]) with 2 in H2 by reflexivity.
    assert (d = []) by (destruct d; auto; unfold Zlen in H2; cbn [length] in H2; lia). subst d.
    exists v. cbn [length skipn]. rewrite app_nil_r. auto.
Qed.

Lemma step_reply v cur done room sw s1 d a b : at_cmd v cur done room sw ->
  card (t_card v) cur = (s1, (0, d ++ [a; b])) -> Zlen d <= 256 -> Zlen d + 2 <= Zlen room ->
  exists w : tvars S, t_r w = (done ++ d) ++ skipn (length d) room /\ t_rpos w = length (done ++ d) /\
    t_rlen w = Zlen (skipn (length d) room) /\
  trx_step card ModeApdu mem clen cs v =
    if a =? 0x61 then
      Ret (Again (mkT s1 [0; 0xC0; 0; 0; b] (t_data w) TxHdr 5 (t_r w) (t_rpos w) (t_rlen w) sw))
    else if a =? 0x6C then
      Ret (Again (mkT s1 (firstn 4 cur ++ [b]) (t_data w) TxHdr 5 (t_r w) (t_rpos w) (t_rlen w) sw))
    else
      let sw' := if sw =? 0 then a * 256 + b else sw in
      if ((sw =? 0) && (cs =? CASE_4S) && Nat.eqb (length d) 0 && is_warning a b)%bool then
        Ret (Again (mkT s1 [0; 0xC0; 0; 0; if ((a =? 0x62) && (2 <=? b) && (b <=? 0x80))%bool then b else 0]
               (t_data w) TxHdr 5 (t_r w) (t_rpos w) (t_rlen w) sw'))
      else
        let* r1 := put (t_r w) (t_rpos w) [Z.shiftr sw' 8; Z.land sw' 0xFF] in
        Ret (Done (mkR 0 r1 (Z.of_nat (t_rpos w + 2)) sw' s1)).
Proof.
  intros Hat Hcard Hd Hroom. pose proof Hat as [].
  destruct ac_ins0 as [l El].
  destruct (copy_apdu v cur done room sw (hd 0 l) d a b Hat Hroom) as (w & Ew & H1 & H2 & H3).
  exists w. repeat (split; [assumption|]). unfold trx_step.
  rewrite ac_tx0. cbn [bind]. rewrite Hcard.
  assert (Hl : length (d ++ [a; b]) = (length d + 2)%nat) by (rewrite app_length; auto).
  destruct (Nat.ltb_spec 258 (length (d ++ [a; b]))); [lia|]. cbn [Z.eqb negb].
  destruct (Nat.eqb_spec (length (d ++ [a; b])) 0); [lia|].
  rewrite El. cbn [bind]. destruct (Nat.ltb_spec 1 (length (d ++ [a; b]))); [|lia].
  rewrite rd_sw1, rd_sw2. cbn [bind].
  replace (cs =? CASE_1) with false by (destruct Hcs as [->| ->]; reflexivity).
  destruct (Nat.eqb_spec (length (d ++ [a; b])) 1); [lia|].
  replace (negb (case_2_4 cs)) with false
      by (unfold case_2_4, CASE_2S, CASE_4S in *; destruct Hcs as [->| ->]; reflexivity).
  replace (Nat.eqb (length (d ++ [a; b])) 2) with (Nat.eqb (length d) 0).
  2: { rewrite Hl. destruct (Nat.eqb_spec (length d) 0), (Nat.eqb_spec (length d + 2) 2); auto; lia. }
  rewrite ac_sw0. destruct (Z.eqb_spec a 0x61) as [->|Ha61].
  { rewrite Ew. cbn [bind orb Z.eqb Pos.eqb]. reflexivity. }
  destruct (Z.eqb_spec a 0x6C) as [->|Ha6C].
  { rewrite Ew. cbn [bind]. rewrite ac_h0. cbn [bind]. reflexivity. }
  destruct (Z.eqb_spec sw 0) as [Hsw|Hsw]; cbn [andb].
  - rewrite Ew. cbn [bind]. destruct ((cs =? CASE_4S) && Nat.eqb (length d) 0 && is_warning a b)%bool eqn:EW; reflexivity.
  - rewrite Ew. cbn [bind]. reflexivity.
Qed.

Definition link_ok (l : link) : Prop := Zlen (link_data l) <= 256.

Lemma links_run ls : forall cur v done room sw fuel K s' R,
  at_cmd v cur done room sw -> Forall link_ok ls ->
  talk card (t_card v) (chain_commands cur ls ++ K) = (s', map (fun rx => (0, rx)) (map link_rx ls) ++ R) ->
  Zlen (chain_data ls) + 2 <= Zlen room ->
  exists v' cur', trx_loop card ModeApdu mem clen cs (length ls + fuel) v = trx_loop card ModeApdu mem clen cs fuel v' /\
    at_cmd v' cur' (done ++ chain_data ls) (skipn (length (chain_data ls)) room) sw /\
    talk card (t_card v') (cur' :: K) = (s', R).
Proof.
  induction ls as [|l ls IH]; intros cur v done room sw fuel K s' R Hat Hok Ht Hroom.
  - exists v, cur. cbn [chain_data flat_map length skipn]. rewrite app_nil_r. split; [reflexivity|]. auto.
  - inversion Hok as [|? ? Hl Hls]; subst.
    cbn [chain_commands app talk map] in Ht.
    destruct (card (t_card v) cur) as [s1 [r rx]] eqn:Ec.
    destruct (talk card s1 (chain_commands (link_next cur l) ls ++ K)) as [s2 rs] eqn:Et.
    injection Ht as Es2 Er Erx Ers. subst s2 r rx.
    cbn [chain_data flat_map] in *. fold (chain_data ls) in *. rewrite Zlen_app in Hroom.
    pose proof (Zlen_nonneg (chain_data ls)).
    assert (NX : exists w, trx_step card ModeApdu mem clen cs v = Ret (Again w) /\
       at_cmd w (link_next cur l) (done ++ link_data l) (skipn (length (link_data l)) room) sw /\ t_card w = s1).
    { destruct l as [d xx|d xx]; cbn [link_rx link_data link_next link_ok] in *; unfold link_ok in Hl; cbn [link_data] in Hl.
      - destruct (step_reply v cur done room sw s1 d 0x61 xx Hat Ec Hl ltac:(lia)) as (w & H1 & H2 & H3 & ->).
        cbn [Z.eqb Pos.eqb]. eexists. split; [reflexivity|]. split; [|reflexivity].
        rewrite H1, H2, H3. apply (hdr_at s1 [0;0xC0;0;0] xx). reflexivity.
      - destruct (step_reply v cur done room sw s1 d 0x6C xx Hat Ec Hl ltac:(lia)) as (w & H1 & H2 & H3 & ->).
        cbn [Z.eqb Pos.eqb]. eexists. split; [reflexivity|]. split; [|reflexivity].
        rewrite H1, H2, H3. apply hdr_at. rewrite firstn_length_le; auto. apply (ac_len _ _ _ _ _ Hat). }
    destruct NX as (w & Ew & Hw & Hcw). cbn [length Nat.add trx_loop]. rewrite Ew. cbn [bind].
    destruct (IH (link_next cur l) w (done ++ link_data l) (skipn (length (link_data l)) room) sw fuel K s' R Hw Hls)
      as (v' & cur' & E1 & E2 & E3).
    + rewrite Hcw, Et. rewrite Ers. reflexivity.
    + unfold Zlen in *. rewrite skipn_length. lia.
    + exists v', cur'. split; [exact E1|]. split; [|exact E3].
      rewrite <- app_assoc in E2. rewrite skipn_skipn' in E2. now rewrite app_length.
Qed.

Lemma final_run v cur done room sw s' d a b fuel : at_cmd v cur done room sw ->
  card (t_card v) cur = (s', (0, d ++ [a; b])) -> Zlen d <= 256 -> Zlen d + 2 <= Zlen room ->
  is_byte a -> is_byte b -> a <> 0x61 -> a <> 0x6C -> 0 <= sw < 65536 ->
  ~ (sw = 0 /\ cs = CASE_4S /\ d = [] /\ (a = 0x62 \/ a = 0x63)) ->
  let fin := if sw =? 0 then a * 256 + b else sw in
  trx_loop card ModeApdu mem clen cs (Datatypes.S fuel) v =
   Ret (mkR 0 (done ++ d ++ [fin / 256; fin mod 256] ++ skipn (length d + 2) room)
          (Zlen done + Zlen d + 2) fin s').
Proof.
  intros Hat Hc Hd Hroom Ha Hb H61 H6C Hsw Hw fin.
  destruct (step_reply v cur done room sw s' d a b Hat Hc Hd Hroom) as (w & H1 & H2 & H3 & Es).
  cbn [trx_loop]. rewrite Es. destruct (Z.eqb_spec a 0x61); [contradiction|].
  destruct (Z.eqb_spec a 0x6C); [contradiction|]. cbv zeta. fold fin.
  destruct ((sw =? 0) && (cs =? CASE_4S) && Nat.eqb (length d) 0 && is_warning a b)%bool eqn:EW.
  { exfalso. apply Hw. apply andb_prop in EW. destruct EW as [EW E4]. apply andb_prop in EW.
    destruct EW as [EW E3]. apply andb_prop in EW. destruct EW as [E1 E2].
    unfold is_warning in E4. split; [lia|]. split; [lia|]. split; [destruct d; auto; discriminate|lia]. }
  rewrite H1, H2. rewrite put_Ret by (rewrite !app_length, skipn_length; cbn [length]; unfold Zlen in *; lia).
  cbn [bind]. rewrite firstn_length_app. f_equal.
  replace (Z.shiftr fin 8) with (fin / 256) by (rewrite Z.shiftr_div_pow2 by lia; reflexivity).
  replace (Z.land fin 255) with (fin mod 256) by (change 255 with (Z.ones 8); rewrite Z.land_ones by lia; reflexivity).
  f_equal.
  - rewrite <- app_assoc. cbn [length]. rewrite <- skipn_skipn', skipn_length_app, skipn_skipn'.
    reflexivity.
  - rewrite app_length. unfold Zlen. lia.
Qed.
End Chain.

Lemma start_at {S} (s : S) cmd tail r : (4 <= length cmd)%nat ->
  at_cmd (cmd ++ tail) (mkT s [0;0;0;0;0] None (TxCmd 0) (length cmd) r 0 (Zlen r) 0) cmd [] r 0.
Proof.
  intros H. split; cbn [t_hdr t_tx t_txlen t_r t_rpos t_rlen t_sw tx_mem]; auto.
  - apply (sub_app [] cmd tail); auto.
  - rewrite sub_Ret by (rewrite app_length; lia). cbn [Nat.add skipn]. rewrite firstn_app.
    replace (4 - length cmd)%nat with 0%nat by lia. cbn [firstn]. now rewrite app_nil_r.
  - eexists. rewrite sub_Ret by (rewrite app_length; lia). reflexivity.
Qed.

Lemma trx_start {S} fuel (card : cardfn S) s cmd tail r sw0 k : bytes cmd -> command k cmd ->
  k = A2S \/ k = A4S -> (1 <= length r)%nat ->
  (4 <= length cmd)%nat /\
  ttl_trx fuel card ModeApdu s cmd tail r sw0 =
  trx_loop card ModeApdu (cmd ++ tail) (length cmd) (case_num k) fuel
     (mkT s [0;0;0;0;0] None (TxCmd 0) (length cmd) r 0 (Zlen r) 0).
Proof.
  intros Hb Hc Hk Hr. pose proof (cmd_case_short k cmd Hb Hc ltac:(tauto)) as E.
  pose proof E as E'. apply apdu_case_len in E'. destruct E' as (_ & L2 & L3).
  assert (Hl : (4 <= length cmd)%nat).
  { destruct Hk as [->| ->]; unfold CASE_2S, CASE_3S, CASE_4S in *; cbn [case_num] in *; lia. }
  split; auto. unfold ttl_trx. destruct (Nat.eqb_spec (length cmd) 0); [lia|].
  destruct (Nat.eqb_spec (length r) 0); [lia|]. cbn [orb]. rewrite E. cbn [bind].
  replace (negb _) with false by (destruct Hk as [->| ->]; reflexivity). reflexivity.
Qed.

Lemma trx_chain {S} (card : cardfn S) s cmd tail r sw0 k ls d a b s' :
  bytes cmd -> command k cmd -> k = A2S \/ k = A4S ->
  Forall link_ok ls -> Zlen d <= 256 -> is_byte a -> is_byte b -> a <> 0x61 -> a <> 0x6C ->
  ~ (k = A4S /\ d = [] /\ (a = 0x62 \/ a = 0x63)) ->
  talk card s (chain_commands cmd ls) = (s', map (fun rx => (0, rx)) (map link_rx ls ++ [d ++ [a; b]])) ->
  Zlen (chain_data ls ++ d) + 2 <= Zlen r ->
  ttl_trx (Datatypes.S (length ls)) card ModeApdu s cmd tail r sw0 =
    Ret (mkR 0 (chain_data ls ++ d ++ [a; b] ++ skipn (length (chain_data ls ++ d) + 2) r)
           (Zlen (chain_data ls ++ d) + 2) (a * 256 + b) s').
Proof.
  intros Hb Hc Hk Hls Hd Ha Hbb H61 H6C Hw Ht Hr.
  pose proof (Zlen_nonneg (chain_data ls ++ d)).
  destruct (trx_start (Datatypes.S (length ls)) card s cmd tail r sw0 k Hb Hc Hk) as [Hl ->]; [unfold Zlen in *; lia|].
  assert (Hcs : case_num k = CASE_2S \/ case_num k = CASE_4S) by (destruct Hk as [->| ->]; auto).
  rewrite Zlen_app in *. pose proof (Zlen_nonneg d).
  destruct (links_run card (cmd ++ tail) (length cmd) (case_num k) Hcs ls cmd _ [] r 0 1 [] s' [(0, d ++ [a; b])]
             (start_at s cmd tail r Hl) Hls) as (v' & cur' & E1 & E2 & E3).
  { rewrite app_nil_r. cbn [t_card]. rewrite Ht, map_app. reflexivity. }
  { lia. }
  replace (Datatypes.S (length ls)) with (length ls + 1)%nat by lia. rewrite E1.
  cbn [talk] in E3. destruct (card (t_card v') cur') as [s1 [r1 rx]] eqn:Ec. injection E3 as -> -> ->.
  rewrite (final_run card (cmd ++ tail) (length cmd) (case_num k) Hcs v' cur' _ _ 0 s' d a b 0 E2 Ec); auto; try lia.
  - cbn [Z.eqb app]. unfold is_byte in *.
    replace ((a * 256 + b) / 256) with a by lia. replace ((a * 256 + b) mod 256) with b by lia.
    rewrite skipn_skipn', app_length, Nat.add_assoc. reflexivity.
  - unfold Zlen in *. rewrite skipn_length. lia.
  - intros (_ & H4 & H5 & H6). apply Hw. split; [destruct Hk as [->| ->]; auto; discriminate|auto].
Qed.

(** Le of the GET RESPONSE after a warning. *)
Definition warning_le (a b : Z) : Z := if ((a =? 0x62) && (2 <=? b) && (b <=? 0x80))%bool then b else 0.

Lemma trx_warning {S} (card : cardfn S) s cmd tail r sw0 ls w1 w2 ls2 d a b s' :
  bytes cmd -> command A4S cmd -> Forall link_ok ls -> Forall link_ok ls2 -> Zlen d <= 256 ->
  w1 = 0x62 \/ w1 = 0x63 -> is_byte w2 -> is_byte a -> is_byte b -> a <> 0x61 -> a <> 0x6C ->
  talk card s (chain_commands cmd ls ++ chain_commands [0x00; 0xC0; 0x00; 0x00; warning_le w1 w2] ls2) =
    (s', map (fun rx => (0, rx)) (map link_rx ls ++ [[w1; w2]] ++ map link_rx ls2 ++ [d ++ [a; b]])) ->
  Zlen (chain_data ls ++ chain_data ls2 ++ d) + 2 <= Zlen r ->
  ttl_trx (2 + length ls + length ls2) card ModeApdu s cmd tail r sw0 =
    Ret (mkR 0 (chain_data ls ++ chain_data ls2 ++ d ++ [w1; w2] ++
                skipn (length (chain_data ls ++ chain_data ls2 ++ d) + 2) r)
           (Zlen (chain_data ls ++ chain_data ls2 ++ d) + 2) (w1 * 256 + w2) s').
Proof.
  intros Hb Hc Hls Hls2 Hd Hw1 Hw2 Ha Hbb H61 H6C Ht Hr.
  pose proof (Zlen_nonneg (chain_data ls ++ chain_data ls2 ++ d)).
  destruct (trx_start (2 + length ls + length ls2) card s cmd tail r sw0 A4S Hb Hc) as [Hl ->]; [auto|unfold Zlen in *; lia|].
  assert (Hcs : case_num A4S = CASE_2S \/ case_num A4S = CASE_4S) by auto.
  rewrite !Zlen_app in *. pose proof (Zlen_nonneg d). pose proof (Zlen_nonneg (chain_data ls2)).
  pose proof (Zlen_nonneg (chain_data ls)).
  destruct (links_run card (cmd ++ tail) (length cmd) (case_num A4S) Hcs ls cmd _ [] r 0 (2 + length ls2)
     (chain_commands [0; 192; 0; 0; warning_le w1 w2] ls2) s'
     (map (fun rx => (0, rx)) ([[w1; w2]] ++ map link_rx ls2 ++ [d ++ [a; b]]))
             (start_at s cmd tail r Hl) Hls) as (v' & cur' & E1 & E2 & E3).
  { cbn [t_card]. rewrite Ht, <- map_app. reflexivity. }
  { lia. }
  replace (2 + length ls + length ls2)%nat with (length ls + (2 + length ls2))%nat by lia. rewrite E1.
  cbn [talk map app] in E3. destruct (card (t_card v') cur') as [s1 [r1 rx]] eqn:Ec.
  destruct (talk card s1 (chain_commands [0; 192; 0; 0; warning_le w1 w2] ls2)) as [s2 rs] eqn:Et.
  injection E3 as -> -> -> ->.
  assert (Hroom : Zlen (skipn (length (chain_data ls)) r) = Zlen r - Zlen (chain_data ls))
    by (unfold Zlen in *; rewrite skipn_length; lia).
  destruct (step_reply card (cmd ++ tail) (length cmd) (case_num A4S) Hcs v' cur' _ _ 0 s1 [] w1 w2 E2 Ec)
    as (w & K1 & K2 & K3 & Es); [cbn; lia|change (Zlen (@nil Z)) with 0; lia|].
  cbn [Nat.add trx_loop]. rewrite Es.
  destruct (Z.eqb_spec w1 0x61); [lia|]. destruct (Z.eqb_spec w1 0x6C); [lia|].
  change (0 =? 0) with true. change (case_num A4S =? CASE_4S) with true.
  change (Nat.eqb (length (@nil Z)) 0) with true. cbn [andb].
  replace (is_warning w1 w2) with true by (unfold is_warning; lia). cbn [bind].
  rewrite K1, K2, K3. rewrite app_nil_r. cbn [length skipn app].
  fold (warning_le w1 w2).
  change (case_num A4S) with CASE_4S.
  set (vw := mkT s1 _ _ _ _ _ _ _ _).
  assert (Hvw : at_cmd (cmd ++ tail) vw [0; 192; 0; 0; warning_le w1 w2] (chain_data ls)
                 (skipn (length (chain_data ls)) r) (w1 * 256 + w2)).
  { apply (hdr_at (cmd ++ tail) s1 [0;192;0;0]). reflexivity. }
  destruct (links_run card (cmd ++ tail) (length cmd) CASE_4S Hcs ls2 _ vw _ _ _ 1 [] s' [(0, d ++ [a; b])]
             Hvw Hls2) as (v2 & cur2 & F1 & F2 & F3).
  { rewrite app_nil_r. subst vw; cbn [t_card]. rewrite Et, map_app. reflexivity. }
  { lia. }
  change (trx_loop card ModeApdu (cmd ++ tail) (length cmd) CASE_4S (Datatypes.S (length ls2)) vw = Ret
    (mkR 0 (chain_data ls ++ chain_data ls2 ++ d ++ [w1; w2] ++
                skipn (length (chain_data ls ++ chain_data ls2 ++ d) + 2) r)
           (Zlen (chain_data ls) + (Zlen (chain_data ls2) + Zlen d) + 2) (w1 * 256 + w2) s')).
  replace (Datatypes.S (length ls2)) with (length ls2 + 1)%nat by lia. rewrite F1.
  cbn [talk] in F3. destruct (card (t_card v2) cur2) as [s3 [r3 rx3]] eqn:Ec3. injection F3 as -> -> ->.
  unfold is_byte in *.
  rewrite (final_run card (cmd ++ tail) (length cmd) CASE_4S Hcs v2 cur2 _ _ (w1 * 256 + w2) s' d a b 0 F2 Ec3);
    auto; try lia.
  - destruct (Z.eqb_spec (w1 * 256 + w2) 0); [lia|].
    replace ((w1 * 256 + w2) / 256) with w1 by lia. replace ((w1 * 256 + w2) mod 256) with w2 by lia.
    f_equal. f_equal.
    + rewrite <- !app_assoc. do 4 f_equal. rewrite !skipn_skipn'. f_equal. rewrite !app_length. lia.
    + rewrite Zlen_app. lia.
  - unfold Zlen in *. rewrite skipn_length. lia.
Qed.

(** ** Termination *)
(** Replies after which the loop may go on: a procedure byte, 61XX, 6CXX, or a
    warning without data. *)
Definition continuing (x : Z * list Z) : Prop :=
  fst x = 0 /\ (Zlen (snd x) = 1 \/
    exists d a b, snd x = d ++ [a; b] /\ (a = 0x61 \/ a = 0x6C \/ d = [] /\ (a = 0x62 \/ a = 0x63))).

Lemma split2 (l : list Z) a b : rd l (length l - 2) = Ret a -> rd l (length l - 1) = Ret b ->
  (2 <= length l)%nat -> exists d, l = d ++ [a; b].
Proof.
  intros Ha Hb Hl. exists (firstn (length l - 2) l).
  rewrite <- (firstn_skipn (length l - 2) l) at 1. f_equal.
  apply rd_Ret in Ha, Hb. rewrite <- (firstn_skipn (length l - 2) l) in Ha, Hb.
  rewrite nth_error_app2 in Ha, Hb by (rewrite firstn_length_le; rewrite ?app_length, ?firstn_length_le, ?skipn_length; lia).
  rewrite firstn_skipn in Ha, Hb. rewrite firstn_length_le in Ha, Hb by lia.
  assert (Hs : length (skipn (length l - 2) l) = 2%nat) by (rewrite skipn_length; lia).
  destruct (skipn (length l - 2) l) as [|x [|y [|z t]]]; try discriminate.
  replace (length l - 2 - (length l - 2))%nat with 0%nat in Ha by lia.
  replace (length l - 1 - (length l - 2))%nat with 1%nat in Hb by lia.
  cbn in Ha, Hb. congruence.
Qed.

Lemma step_continues {S} (card : cardfn S) md mem clen cs v v' :
  trx_step card md mem clen cs v = Ret (Again v') ->
  exists tx, continuing (snd (card (t_card v) tx)) /\ t_card v' = fst (card (t_card v) tx).
Proof.
  intros H. pose proof (step_sends _ _ _ _ _ _ _ H) as (tx & Etx & Hc). cbn [card_of] in Hc.
  exists tx. split; auto. clear Hc. unfold trx_step in H. rewrite Etx in H. cbn [bind] in H.
  destruct (card (t_card v) tx) as [s [r rx]]. cbn [snd].
  destruct (Nat.ltb 258 (length rx)); [discriminate|].
  destruct (Z.eqb_spec r 0) as [->|]; cbn [negb] in H; [|discriminate].
  destruct (Nat.eqb_spec (length rx) 0); [discriminate|].
  destruct (tx_mem _ _ _ 1 1) as [insl| |]; cbn [bind] in H; try discriminate.
  destruct (Nat.ltb_spec 1 (length rx)).
  2: { split; [reflexivity|]. left. cbn [snd]. unfold Zlen. lia. }
  destruct (rd rx (length rx - 2)) as [sw1| |] eqn:E1; cbn [bind] in H; try discriminate.
  destruct (rd rx (length rx - 1)) as [sw2| |] eqn:E2; cbn [bind] in H; try discriminate.
  destruct (split2 rx sw1 sw2 E1 E2 ltac:(lia)) as [d ->].
  split; [reflexivity|]. right. cbn [snd]. exists d, sw1, sw2. split; [reflexivity|].
  destruct (cs =? CASE_1).
  { destruct (negb _); [discriminate|]. destruct (put _ _ _); cbn [bind] in H; discriminate. }
  destruct (Nat.eqb_spec (length (d ++ [sw1; sw2])) 1); [lia|].
  destruct (Z.eqb_spec sw1 0x61); [auto|]. destruct (Z.eqb_spec sw1 0x6C); [auto|].
  right; right.
  destruct (t_sw v =? 0).
  - destruct ((cs =? CASE_4S) && Nat.eqb (length (d ++ [sw1; sw2])) 2 && is_warning sw1 sw2)%bool eqn:EW.
    + apply andb_prop in EW. destruct EW as [EW E3]. apply andb_prop in EW. destruct EW as [_ E4].
      rewrite app_length in E4. cbn [length] in E4. unfold is_warning in E3.
      split; [destruct d; auto; cbn [length] in E4; lia|lia].
    + destruct (trx_copy _ _ _ _ _) as [c| |]; cbn [bind] in H; try discriminate.
      destruct c; [|discriminate]. destruct (put _ _ _); cbn [bind] in H; discriminate.
  - destruct (trx_copy _ _ _ _ _) as [c| |]; cbn [bind] in H; try discriminate.
    destruct c; [|discriminate]. destruct (put _ _ _); cbn [bind] in H; discriminate.
Qed.

Lemma step_not_NoFuel {S} (card : cardfn S) md mem clen cs v : trx_step card md mem clen cs v <> NoFuel.
Proof.
  assert (TM : forall (hdr : list Z) p i n, tx_mem mem hdr p i n <> NoFuel).
  { intros hdr [off|] i n; unfold tx_mem, sub; destruct (Nat.leb _ _); discriminate. }
  assert (PN : forall (b : list Z) o l, put b o l <> NoFuel) by (intros; unfold put; destruct (Nat.leb _ _); discriminate).
  assert (SN : forall (b : list Z) o l, sub b o l <> NoFuel) by (intros; unfold sub; destruct (Nat.leb _ _); discriminate).
  unfold trx_step. intros H.
  repeat match type of H with
  | (let* _ := ?m in _) = _ => destruct m eqn:?; cbn [bind] in H; try discriminate
  | (let '(_, _) := ?m in _) = _ => destruct m as [? [? ?]]
  | (if ?b then _ else _) = _ => destruct b eqn:?
  | match ?m with _ => _ end = _ => destruct m eqn:?; try discriminate
  end; try discriminate;
  repeat match goal with
  | E : (if ?b then _ else _) = NoFuel |- _ => destruct b; try discriminate
  | E : rd _ _ = NoFuel |- _ => now apply rd_not_NoFuel in E
  | E : tx_mem _ _ _ _ _ = NoFuel |- _ => now apply TM in E
  | E : put _ _ _ = NoFuel |- _ => now apply PN in E
  | E : trx_copy _ _ _ _ _ = NoFuel |- _ => unfold trx_copy in E
  | E : match md with _ => _ end = NoFuel |- _ => destruct md
  | E : (let* _ := ?m in _) = NoFuel |- _ => destruct m eqn:?; cbn [bind] in E; try discriminate
  | E : sub _ _ _ = NoFuel |- _ => now apply SN in E
  end.
  unfold trx_procedure in H.
  repeat match type of H with
  | (let* _ := ?m in _) = _ => destruct m eqn:?; cbn [bind] in H; try discriminate
  | (if ?b then _ else _) = _ => destruct b eqn:?
  | match ?m with _ => _ end = _ => destruct m eqn:?; try discriminate
  end; try discriminate;
  match goal with
  | E : rd _ _ = NoFuel |- _ => now apply rd_not_NoFuel in E
  | E : put _ _ _ = NoFuel |- _ => now apply PN in E
  end.
Qed.

Lemma loop_NoFuel {S} (card : cardfn S) md mem clen cs fuel : forall v,
  trx_loop card md mem clen cs fuel v = NoFuel ->
  exists txs, length txs = fuel /\ Forall continuing (snd (talk card (t_card v) txs)).
Proof.
  induction fuel as [|fuel IH]; intros v H.
  - exists []. split; [auto|constructor].
  - cbn [trx_loop] in H. destruct (trx_step card md mem clen cs v) as [i| |] eqn:Es; cbn [bind] in H; try discriminate.
    + destruct i as [v'|t]; [|discriminate]. apply step_continues in Es. destruct Es as (tx & Hc & Hs).
      apply IH in H. destruct H as (txs & Hl & HF). exists (tx :: txs). split; [cbn; congruence|].
      cbn [talk]. rewrite Hs in HF. destruct (card (t_card v) tx) as [s1 r]. cbn [fst snd] in *.
      destruct (talk card s1 txs) as [s2 rs]. cbn [snd] in *. constructor; auto.
    + now apply step_not_NoFuel in Es.
Qed.

Lemma trx_ends {S} fuel (card : cardfn S) md s cmd tail r sw0 : bytes cmd ->
  (forall txs, length txs = fuel -> ~ Forall continuing (snd (talk card s txs))) ->
  ttl_trx fuel card md s cmd tail r sw0 <> NoFuel.
Proof.
  intros Hb Hn. unfold ttl_trx.
  destruct (_ || _)%bool; [discriminate|]. destruct (apdu_case_total cmd Hb) as [cs ->]; cbn [bind].
  destruct (negb _); [discriminate|].
  assert (L : forall mem clen v, t_card v = s -> trx_loop card md mem clen cs fuel v <> NoFuel).
  { intros mem clen v <- E. apply loop_NoFuel in E. destruct E as (txs & Hl & HF). eapply Hn; eauto. }
  destruct md; [apply L; reflexivity|].
  destruct (if cs =? CASE_1 then _ else _) eqn:E; cbn [bind]; try discriminate.
  - now apply L.
  - exfalso. destruct (cs =? CASE_1).
    + destruct (sub cmd 0 4) eqn:E2; cbn [bind] in E; try discriminate.
      unfold sub in E2. destruct (Nat.leb _ _); discriminate.
    + unfold sub in E. destruct (Nat.leb _ _); discriminate.
Qed.

(** ** T=0 data after one acknowledge-all byte *)
Lemma tpdu_ack_all {S} fuel (card : cardfn S) s cmd d tail r sw0 t s1 h le : bytes cmd ->
  cmd = h ++ [Zlen d] ++ d ++ le -> length h = 4%nat -> 1 <= Zlen d <= 255 ->
  (le = [] \/ exists x, le = [x]) -> (1 <= length r)%nat -> nth 1 h 0 <> 0x60 ->
  card s (h ++ [Zlen d]) = (s1, (0, [nth 1 h 0])) ->
  ttl_trx fuel (logged card) ModeTpdu (s, []) cmd tail r sw0 = Ret t ->
  snd (o_card t) = [h ++ [Zlen d]] \/ exists more, snd (o_card t) = (h ++ [Zlen d]) :: d :: more /\
    Forall (fun m => exists x, m = [0x00; 0xC0; 0x00; 0x00; x] \/ m = firstn 4 (d ++ le ++ tail) ++ [x]) more.
Proof.
  intros Hb Hcmd Hh Hd Hle Hr H60 Hc H.
  assert (Ek : exists k, command k cmd /\ (k = A3S \/ k = A4S)).
  { destruct Hle as [->|[x ->]].
    - exists A3S. rewrite app_nil_r in Hcmd. subst cmd. split; auto. now constructor.
    - exists A4S. subst cmd. split; auto. now constructor. }
  destruct Ek as (k & Hk & Hk2).
  unfold ttl_trx in H. rewrite (cmd_case_short k cmd Hb Hk) in H by tauto.
  assert (Hl : (6 <= length cmd)%nat).
  { subst cmd. rewrite !app_length. cbn [length]. unfold Zlen in Hd. lia. }
  destruct (Nat.eqb_spec (length cmd) 0); [lia|]. destruct (Nat.eqb_spec (length r) 0); [lia|].
  cbn [orb bind] in H.
  replace (negb _) with false in H by (destruct Hk2 as [->| ->]; reflexivity).
  replace (case_num k =? CASE_1) with false in H by (destruct Hk2 as [->| ->]; reflexivity).
  replace ((case_num k =? CASE_3S) || (case_num k =? CASE_4S))%bool with true in H
    by (destruct Hk2 as [->| ->]; reflexivity).
  assert (E5 : sub cmd 0 5 = Ret (h ++ [Zlen d])).
  { subst cmd. replace (h ++ [Zlen d] ++ d ++ le) with ((h ++ [Zlen d]) ++ (d ++ le)) by (now rewrite <- app_assoc).
    apply (sub_app [] (h ++ [Zlen d])); auto. rewrite app_length; cbn [length]; lia. }
  rewrite E5 in H. cbn [bind] in H. destruct fuel as [|fuel]; [discriminate|]. cbn [trx_loop] in H.
  unfold trx_step in H. cbn [t_hdr t_tx t_txlen t_card tx_mem] in H.
  assert (E6 : sub (h ++ [Zlen d]) 0 5 = Ret (h ++ [Zlen d])).
  { rewrite sub_Ret by (rewrite app_length; cbn [length]; lia). cbn [skipn].
    rewrite firstn_all2; auto. rewrite app_length; cbn [length]; lia. }
  rewrite E6 in H. cbn [bind logged] in H. rewrite Hc in H. cbn [length Nat.ltb Nat.leb Z.eqb negb Nat.eqb] in H.
  destruct h as [|h0 [|h1 [|h2 [|h3 [|]]]]]; try discriminate. cbn [nth] in *.
  cbn [app] in H. change (sub [h0; h1; h2; h3; Zlen d] 1 1) with (Ret [h1]) in H. cbn [bind hd] in H.
  change (rd [h1] 0) with (Ret h1) in H. cbn [bind] in H.
  replace (case_num k =? CASE_1) with false in H by (destruct Hk2 as [->| ->]; reflexivity).
  unfold trx_procedure in H. destruct (Z.eqb_spec h1 96); [contradiction|].
  rewrite Z.eqb_refl in H. cbn [t_data t_hdr] in H.
  change (rd [h0; h1; h2; h3; Zlen d] 4) with (Ret (Zlen d)) in H. cbn [bind] in H.
  assert (Ec : skipn 5 (cmd ++ tail) = d ++ le ++ tail) by (subst cmd; cbn [app skipn]; now rewrite <- app_assoc).
  apply (loop_follow card _ _ _ _ (d ++ le ++ tail) fuel _ _ d) in H; cbn [t_data t_tx t_hdr t_txlen t_card snd] in *; auto.
  - cbn [tx_mem]. rewrite sub_Ret.
    + rewrite Nat.add_0_r, Ec. unfold Zlen. rewrite Nat2Z.id. now rewrite firstn_length_app.
    + subst cmd. rewrite !app_length. cbn [length]. unfold Zlen. rewrite Nat2Z.id. lia.
  - intros h' Eh. cbn [tx_mem] in Eh. apply sub_inv in Eh. rewrite Nat.add_0_r, Ec in Eh. right. tauto.
Qed.

(** ** Wrong Le: case 2 commands are repeated with the right one *)
Lemma wrong_le_case2 {S} fuel (card : cardfn S) md s h le xx tail r sw0 t s1 : bytes (h ++ [le]) ->
  length h = 4%nat -> (1 <= length r)%nat ->
  card s (h ++ [le]) = (s1, (0, [0x6C; xx])) ->
  ttl_trx fuel (logged card) md (s, []) (h ++ [le]) tail r sw0 = Ret t ->
  exists more, snd (o_card t) = (h ++ [le]) :: (h ++ [xx]) :: more.
Proof.
  intros Hb Hh Hr Hc H. unfold ttl_trx in H.
  rewrite (cmd_case_short A2S (h ++ [le]) Hb) in H; [|now constructor|tauto].
  destruct h as [|h0 [|h1 [|h2 [|h3 [|]]]]]; try discriminate. cbn [app length Nat.eqb orb bind] in H.
  destruct (Nat.eqb_spec (length r) 0); [lia|].
  change (case_num A2S) with 1 in H. cbn [Z.eqb CASE_1 CASE_2S CASE_3S CASE_4S orb negb Pos.eqb] in H.
  change (sub [h0; h1; h2; h3; le] 0 5) with (Ret [h0; h1; h2; h3; le]) in H.
  assert (HcL : logged card (s, []) [h0; h1; h2; h3; le] = ((s1, [[h0; h1; h2; h3; le]]), (0, [0x6C; xx])))
    by (unfold logged; cbn [app] in Hc; now rewrite Hc).
  destruct fuel as [|fuel]; [destruct md; discriminate|].
  destruct md; cbn [bind trx_loop] in H; unfold trx_step in H;
    cbn [t_hdr t_tx t_txlen t_card tx_mem t_data t_r t_rpos t_rlen t_sw app Nat.add] in H.
  - assert (E5 : forall n m v, (n + m <= 5)%nat -> sub [h0; h1; h2; h3; le] n m = Ret v ->
       sub (h0 :: h1 :: h2 :: h3 :: le :: tail) n m = Ret v).
    { intros n0 m v Hnm E. apply sub_inv in E. destruct E as [_ ->].
      rewrite sub_Ret by (cbn [length]; lia). f_equal.
      change (h0 :: h1 :: h2 :: h3 :: le :: tail) with ([h0; h1; h2; h3; le] ++ tail).
      rewrite skipn_app, firstn_app.
      replace (m - length (skipn n0 [h0; h1; h2; h3; le]))%nat with 0%nat by (rewrite skipn_length; cbn [length]; lia).
      cbn [firstn]. now rewrite app_nil_r. }
    rewrite (E5 0%nat 5%nat [h0; h1; h2; h3; le] ltac:(lia) eq_refl) in H. cbn [bind] in H. rewrite HcL in H.
    cbn [length Nat.ltb Nat.leb Z.eqb negb Nat.eqb] in H.
    rewrite (E5 1%nat 1%nat [h1] ltac:(lia) eq_refl) in H. cbn [bind] in H.
    change (rd [108; xx] (2 - 2)) with (Ret 108) in H. change (rd [108; xx] (2 - 1)) with (Ret xx) in H.
    cbn [bind Z.eqb Pos.eqb CASE_1 case_2_4 CASE_2S orb negb] in H. unfold case_2_4 in H. cbn [Z.eqb Pos.eqb CASE_1 CASE_2S orb negb] in H.
    unfold trx_copy in H. cbn [Zlen length Z.of_nat Pos.of_succ_nat Pos.succ Z.ltb Z.compare Pos.compare Pos.compare_cont] in H.
    unfold Zlen in H. cbn [length Z.of_nat Pos.of_succ_nat Pos.succ Z.ltb Z.compare Pos.compare Pos.compare_cont bind] in H.
    cbn [t_r t_rpos t_rlen t_data] in H.
    rewrite (E5 0%nat 4%nat [h0; h1; h2; h3] ltac:(lia) eq_refl) in H. cbn [bind] in H.
    apply loop_log in H. cbn [t_tx t_txlen t_card tx_mem snd t_hdr app] in H.
    destruct H as (tx & more & Etx & Hm). exists more. rewrite Hm. cbn [app]. do 2 f_equal.
    apply sub_inv in Etx. destruct Etx as [_ ->]. reflexivity.
  - change (sub [h0; h1; h2; h3; le] 0 5) with (Ret [h0; h1; h2; h3; le]) in H.
    cbn [bind] in H. rewrite HcL in H.
    cbn [length Nat.ltb Nat.leb Z.eqb negb Nat.eqb] in H.
    change (sub [h0; h1; h2; h3; le] 1 1) with (Ret [h1]) in H. cbn [bind] in H.
    change (rd [108; xx] (2 - 2)) with (Ret 108) in H. change (rd [108; xx] (2 - 1)) with (Ret xx) in H.
    cbn [bind Z.eqb Pos.eqb CASE_1] in H. unfold case_2_4 in H. cbn [Z.eqb Pos.eqb CASE_1 CASE_2S orb negb] in H.
    unfold trx_copy in H. unfold Zlen in H. cbn [length Z.of_nat Pos.of_succ_nat Pos.succ Z.ltb Z.compare Pos.compare Pos.compare_cont bind] in H.
    cbn [t_r t_rpos t_rlen t_data] in H.
    change (sub [h0; h1; h2; h3; le] 0 4) with (Ret [h0; h1; h2; h3]) in H. cbn [bind] in H.
    apply loop_log in H. cbn [t_tx t_txlen t_card tx_mem snd t_hdr app] in H.
    destruct H as (tx & more & Etx & Hm). exists more. rewrite Hm. cbn [app]. do 2 f_equal.
    apply sub_inv in Etx. destruct Etx as [_ ->]. reflexivity.
Qed.

(** ** Commands *)
Definition first_tx (md : mode) (cmd : list Z) : list Z :=
  match md with ModeApdu => cmd | ModeTpdu => firstn 5 cmd end.
(** [sends_command md cmd log]: the first transmission is [cmd] (or, for T=0
    readers, its header), and in APDU mode only GET RESPONSE and repetitions
    with another Le follow. *)
Definition sends_command (md : mode) (cmd : list Z) (log : list (list Z)) : Prop :=
  exists more, log = first_tx md cmd :: more /\ (md = ModeApdu -> Forall (follow_up cmd) more).

Lemma finish_card {S} e4 e5 (t : tres S) outb t' : ttl_finish e4 e5 t outb = Ret t' -> o_card t' = o_card t.
Proof.
  unfold ttl_finish. destruct (negb _); [intros H; inv_ret H; auto|].
  destruct (_ <? 2); [intros H; inv_ret H; auto|]. destruct (_ <? _); [intros H; inv_ret H; auto|].
  destruct (sub _ _ _); cbn [bind]; try discriminate. destruct (put _ _ _); cbn [bind]; try discriminate.
  intros H; inv_ret H; auto.
Qed.

Lemma trx_sends {S} fuel (card : cardfn S) md s cmd tail r sw0 t :
  ttl_trx fuel (logged card) md (s, []) cmd tail r sw0 = Ret t -> (1 <= length r)%nat ->
  (exists k, (k = A2S \/ k = A3S \/ k = A4S) /\ command k cmd /\ bytes cmd) ->
  sends_command md cmd (snd (o_card t)).
Proof.
  intros H Hr Hk. pose proof (trx_log _ _ _ _ _ _ _ _ _ _ H Hr Hk) as L. unfold sends_command, first_tx.
  destruct md.
  - destruct L as (more & E & F). exists more. auto.
  - destruct L as (more & E). exists more. split; [auto|discriminate].
Qed.

Lemma select_sends {S} fuel (card : cardfn S) md junk p2 s name outb sw0 t : is_byte p2 -> bytes name ->
  5 <= Zlen name <= 16 -> 256 <= Zlen outb ->
  ttl_select_gen fuel (logged card) md junk p2 (s, []) name outb sw0 = Ret t ->
  sends_command md ([0; 0xA4; 4; p2; Zlen name] ++ name ++ [0]) (snd (o_card t)).
Proof.
  intros Hp Hb Hn Ho H. unfold ttl_select_gen in H.
  destruct (Nat.eqb_spec (length outb) 0); [unfold Zlen in *; lia|].
  destruct (Z.ltb_spec (Zlen outb) RAPDU_DATA_MAX); [unfold RAPDU_DATA_MAX in *; lia|].
  destruct ((Zlen name <? 5) || (16 <? Zlen name))%bool eqn:E; [lia|].
  rewrite u8_id in H by lia. apply bind_Ret_inv in H. destruct H as (t0 & Ht0 & H).
  apply finish_card in H. rewrite H.
  eapply trx_sends; eauto; [rewrite repeat_length; unfold RAPDU_MAX; lia|].
  exists A4S. split; [auto|]. split.
  - apply (cmd_4s [0; 164; 4; p2] name 0); auto. lia.
  - repeat apply bytes_cons; unfold is_byte in *; try lia. apply bytes_app_intro; auto. apply bytes_one. unfold is_byte; lia.
Qed.

Lemma select_range {S} fuel (card : cardfn S) md junk p2 s name outb sw0 :
  ~ (5 <= Zlen name <= 16) -> 256 <= Zlen outb ->
  ttl_select_gen fuel card md junk p2 s name outb sw0 = Ret (mkR (-3) outb (Zlen outb) sw0 s).
Proof.
  intros Hn Ho. unfold ttl_select_gen.
  destruct (Nat.eqb_spec (length outb) 0); [unfold Zlen in *; lia|].
  destruct (Z.ltb_spec (Zlen outb) RAPDU_DATA_MAX); [unfold RAPDU_DATA_MAX in *; lia|].
  destruct ((Zlen name <? 5) || (16 <? Zlen name))%bool eqn:E; [auto|lia].
Qed.

Lemma p2_value sfi : 0 <= sfi < 32 -> u8 (Z.lor (Z.shiftl sfi 3) 4) = sfi * 8 + 4.
Proof. intros. rewrite lor_shiftl by lia. change (2 ^ 3) with 8. apply u8_id. lia. Qed.

Lemma read_record_sends {S} fuel (card : cardfn S) md s sfi rec outb sw0 t : is_byte rec ->
  1 <= sfi <= 30 -> 256 <= Zlen outb ->
  ttl_read_record fuel (logged card) md (s, []) sfi rec outb sw0 = Ret t ->
  sends_command md [0; 0xB2; rec; sfi * 8 + 4; 0] (snd (o_card t)).
Proof.
  intros Hp Hn Ho H. unfold ttl_read_record in H.
  destruct (Nat.eqb_spec (length outb) 0); [unfold Zlen in *; lia|].
  destruct (Z.ltb_spec (Zlen outb) RAPDU_DATA_MAX); [unfold RAPDU_DATA_MAX in *; lia|].
  destruct ((sfi <? 1) || (30 <? sfi))%bool eqn:E; [lia|].
  rewrite p2_value in H by lia. apply bind_Ret_inv in H. destruct H as (t0 & Ht0 & H).
  apply finish_card in H. rewrite H.
  eapply trx_sends; eauto; [rewrite repeat_length; unfold RAPDU_MAX; lia|].
  exists A2S. split; [auto|]. split.
  - now apply (cmd_2s [0; 178; rec; sfi * 8 + 4] 0).
  - repeat apply bytes_cons; unfold is_byte in *; try lia. constructor.
Qed.

(** READ RECORD in both modes, with everything that follows it. *)
Lemma read_record_log {S} fuel (card : cardfn S) md s log sfi rec outb sw0 t : is_byte rec ->
  1 <= sfi <= 30 -> 256 <= Zlen outb ->
  ttl_read_record fuel (logged card) md (s, log) sfi rec outb sw0 = Ret t ->
  exists more, snd (o_card t) = log ++ [0; 0xB2; rec; sfi * 8 + 4; 0] :: more /\
    Forall (follow_up [0; 0xB2; rec; sfi * 8 + 4; 0]) more.
Proof.
  intros Hp Hn Ho H. unfold ttl_read_record in H.
  destruct (Nat.eqb_spec (length outb) 0); [unfold Zlen in *; lia|].
  destruct (Z.ltb_spec (Zlen outb) RAPDU_DATA_MAX); [unfold RAPDU_DATA_MAX in *; lia|].
  destruct ((sfi <? 1) || (30 <? sfi))%bool eqn:E; [lia|].
  rewrite p2_value in H by lia. apply bind_Ret_inv in H. destruct H as (t0 & Ht0 & H).
  apply finish_card in H. rewrite H. clear H. set (cmd := [0; 178; rec; sfi * 8 + 4; 0]) in *.
  assert (Hb : bytes cmd) by (unfold cmd; repeat apply bytes_cons; unfold is_byte in *; try lia; constructor).
  assert (Hc : command A2S cmd) by (now apply (cmd_2s [0; 178; rec; sfi * 8 + 4] 0)).
  destruct md; [exact (trx_log _ _ _ _ _ _ _ _ _ _ Ht0 ltac:(rewrite repeat_length; unfold RAPDU_MAX; lia)
                         (ex_intro _ A2S (conj (or_introl eq_refl) (conj Hc Hb))))|].
  unfold ttl_trx in Ht0. rewrite (cmd_case_short A2S cmd Hb Hc) in Ht0 by tauto.
  rewrite repeat_length in Ht0. change (Nat.eqb (length cmd) 0) with false in Ht0. change (Nat.eqb RAPDU_MAX 0) with false in Ht0.
  cbn [orb bind case_num] in Ht0. change (negb _) with false in Ht0. change (CASE_2S =? CASE_1) with false in Ht0.
  change (sub cmd 0 5) with (Ret cmd) in Ht0. cbn [bind] in Ht0.
  apply (loop_follow card _ _ _ _ cmd fuel _ _ cmd) in Ht0; cbn [t_data t_tx t_hdr t_txlen t_card snd] in *; auto.
  intros h Eh. change (Ret (firstn 4 cmd) = Ret h) in Eh. inv_ret Eh. auto.
Qed.

Lemma read_record_range {S} fuel (card : cardfn S) md s sfi rec outb sw0 :
  ~ (1 <= sfi <= 30) -> 256 <= Zlen outb ->
  ttl_read_record fuel card md s sfi rec outb sw0 = Ret (mkR (-3) outb (Zlen outb) sw0 s).
Proof.
  intros Hn Ho. unfold ttl_read_record.
  destruct (Nat.eqb_spec (length outb) 0); [unfold Zlen in *; lia|].
  destruct (Z.ltb_spec (Zlen outb) RAPDU_DATA_MAX); [unfold RAPDU_DATA_MAX in *; lia|].
  destruct ((sfi <? 1) || (30 <? sfi))%bool eqn:E; [auto|lia].
Qed.

Lemma gpo_sends {S} fuel (card : cardfn S) md junk s data outb sw0 t : 256 <= Zlen outb ->
  (forall d, data = Some d -> bytes d /\ 2 <= Zlen d <= 255 /\ nth 0 d 0 = 0x83) ->
  ttl_gpo fuel (logged card) md junk (s, []) data outb sw0 = Ret t ->
  let d := match data with Some d => d | None => [0x83; 0] end in
  sends_command md ([0x80; 0xA8; 0; 0; Zlen d] ++ d ++ [0]) (snd (o_card t)).
Proof.
  intros Ho Hd H. unfold ttl_gpo in H.
  destruct (Nat.eqb_spec (length outb) 0); [unfold Zlen in *; lia|].
  destruct (Z.ltb_spec (Zlen outb) RAPDU_DATA_MAX); [unfold RAPDU_DATA_MAX in *; lia|].
  assert (G : forall d, bytes d -> 2 <= Zlen d <= 255 ->
    (let* t := ttl_trx fuel (logged card) md (s, []) ([0x80; 0xA8; 0; 0; u8 (Zlen d)] ++ d ++ [0]) junk
        (repeat 0 RAPDU_MAX) sw0 in ttl_finish (-5) (-6) t outb) = Ret t ->
    sends_command md ([0x80; 0xA8; 0; 0; Zlen d] ++ d ++ [0]) (snd (o_card t))).
  { clear H. intros d Hb Hl H. rewrite u8_id in H by lia. apply bind_Ret_inv in H. destruct H as (t0 & Ht0 & H).
    apply finish_card in H. rewrite H.
    eapply trx_sends; eauto; [rewrite repeat_length; unfold RAPDU_MAX; lia|].
    exists A4S. split; [auto|]. split.
    - apply (cmd_4s [128; 168; 0; 0] d 0); auto. lia.
    - repeat apply bytes_cons; unfold is_byte in *; try lia. apply bytes_app_intro; auto. apply bytes_one. unfold is_byte; lia. }
  destruct data as [d|]; cbv zeta.
  - destruct (Hd d eq_refl) as (Hb & Hl & H83).
    destruct ((Zlen d <? 2) || (255 <? Zlen d))%bool eqn:E; [lia|].
    destruct d as [|d0 d]; [cbn in Hl; lia|]. change (rd (d0 :: d) 0) with (Ret d0) in H. cbn [bind] in H.
    cbn [nth] in H83. subst d0. cbn [Z.eqb Pos.eqb negb bind] in H. now apply G.
  - cbn [bind] in H. apply G in H; auto.
    + repeat apply bytes_cons; unfold is_byte in *; try lia. constructor.
    + cbn; lia.
Qed.

Lemma gpo_range {S} fuel (card : cardfn S) md junk s d outb sw0 : 256 <= Zlen outb ->
  ~ (2 <= Zlen d <= 255 /\ nth 0 d 0 = 0x83) ->
  exists code, code < 0 /\
  ttl_gpo fuel card md junk s (Some d) outb sw0 = Ret (mkR code outb (Zlen outb) sw0 s).
Proof.
  intros Ho Hn. unfold ttl_gpo.
  destruct (Nat.eqb_spec (length outb) 0); [unfold Zlen in *; lia|].
  destruct (Z.ltb_spec (Zlen outb) RAPDU_DATA_MAX); [unfold RAPDU_DATA_MAX in *; lia|].
  destruct ((Zlen d <? 2) || (255 <? Zlen d))%bool eqn:E.
  { exists (-3). cbn [bind]. split; [lia|auto]. }
  destruct d as [|d0 d]; [cbn in E; discriminate|]. change (rd (d0 :: d) 0) with (Ret d0). cbn [bind].
  destruct (Z.eqb_spec d0 131).
  - exfalso. apply Hn. cbn [nth]. split; [|auto].
    apply orb_false_iff in E. destruct E as [E1 E2]. apply Z.ltb_ge in E1, E2. lia.
  - cbn [negb bind]. exists (-4). split; [lia|auto].
Qed.

Lemma read_record_chain {S} (card : cardfn S) s sfi rec outb sw0 ls d a b s' :
  is_byte rec -> 1 <= sfi <= 30 -> 256 <= Zlen outb ->
  Forall link_ok ls -> is_byte a -> is_byte b -> a <> 0x61 -> a <> 0x6C ->
  talk card s (chain_commands [0; 0xB2; rec; sfi * 8 + 4; 0] ls) =
     (s', map (fun rx => (0, rx)) (map link_rx ls ++ [d ++ [a; b]])) ->
  Zlen (chain_data ls ++ d) <= 256 ->
  let data := chain_data ls ++ d in
  ttl_read_record (Datatypes.S (length ls)) card ModeApdu s sfi rec outb sw0 =
    Ret (mkR 0 (data ++ skipn (length data) outb) (Zlen data) (a * 256 + b) s').
Proof.
  intros Hrec Hsfi Ho Hls Ha Hb H61 H6C Ht Hl data. unfold ttl_read_record.
  destruct (Nat.eqb_spec (length outb) 0); [unfold Zlen in *; lia|].
  destruct (Z.ltb_spec (Zlen outb) RAPDU_DATA_MAX); [unfold RAPDU_DATA_MAX in *; lia|].
  destruct ((sfi <? 1) || (30 <? sfi))%bool eqn:E; [lia|].
  rewrite p2_value by lia.
  rewrite (trx_chain card s [0; 178; rec; sfi * 8 + 4; 0] [] (repeat 0 RAPDU_MAX) sw0 A2S ls d a b s'); auto.
  - cbn [bind]. fold data. unfold ttl_finish. cbn [o_ret o_len o_buf Z.eqb negb o_sw o_card].
    pose proof (Zlen_nonneg data).
    destruct (Z.ltb_spec (Zlen data + 2) 2); [lia|].
    replace (Zlen data + 2 - 2) with (Zlen data) by lia.
    destruct (Z.ltb_spec (Zlen outb) (Zlen data)); [subst data; lia|].
    unfold Zlen at 1. rewrite Nat2Z.id. fold data.
    replace (chain_data ls ++ d ++ [a; b] ++ skipn (length data + 2) (repeat 0 RAPDU_MAX)) with
      (data ++ ([a; b] ++ skipn (length data + 2) (repeat 0 RAPDU_MAX))) by (subst data; now rewrite <- !app_assoc).
    rewrite sub_Ret by (rewrite app_length; lia). cbn [bind]. match goal with |- context [skipn 0 ?x] => change (skipn 0 x) with x end. rewrite firstn_length_app.
    rewrite put_Ret by (unfold Zlen in *; subst data; lia). cbn [bind firstn app Nat.add]. reflexivity.
  - repeat apply bytes_cons; unfold is_byte in *; try lia. constructor.
  - now apply (cmd_2s [0; 178; rec; sfi * 8 + 4] 0).
  - rewrite Zlen_app in Hl. pose proof (Zlen_nonneg (chain_data ls)). lia.
  - intros (Hk & _). discriminate.
  - unfold Zlen at 2. rewrite repeat_length. unfold RAPDU_MAX. lia.
Qed.
