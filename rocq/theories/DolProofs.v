(** Proofs about Data Object Lists and COMPACT-TLV. *)
From Verif Require Import Base BaseLemmas BerModel BerSpec BerProofs TlvListModel TlvModel TlvProofs
  DolModel DolSpec.

(** ** Decoding entries *)
Lemma tag_decode_zero buf t : ber_tag_decode buf = Ret (0, t) -> buf = [].
Proof.
  unfold ber_tag_decode. destruct buf as [|b buf]; auto. cbn [length Nat.eqb].
  unfold rd; cbn [nth_error bind]. destruct (Z.land b 31 =? 31); [|discriminate].
  assert (NZ : forall f bb off tg tt, (0 < off)%nat -> ber_tag_loop f bb off tg <> Ret (0, tt)).
  { clear. induction f as [|f IH]; intros bb off tg tt Ho; [discriminate|].
    cbn [ber_tag_loop]. destruct (length bb <=? off)%nat; [discriminate|].
    destruct (rd bb off) as [x| |] eqn:Ex; cbn [bind]; try discriminate.
    destruct (Z.land x 128 =? 0); [intros HH; injection HH; lia|].
    destruct (4 <=? S off)%nat; [discriminate|]. apply IH; lia. }
  intros E. apply NZ in E; [contradiction|lia].
Qed.

Lemma dol_decode_complete id n rest : identifier id ->
  dol_decode (id ++ n :: rest) = Ret (Zlen id + 1, Some (be id, n)).
Proof.
  intros H. pose proof (identifier_length _ H) as Hl. unfold dol_decode.
  rewrite app_length; cbn [length]. destruct (Nat.eqb_spec (length id + S (length rest)) 0); [lia|].
  destruct (Nat.ltb_spec (length id + S (length rest)) 2); [lia|].
  rewrite tag_decode_complete by auto. cbn [bind].
  destruct (Z.leb_spec (Zlen id) 0); [lia|].
  replace (Z.to_nat (Zlen id)) with (length id) by lia.
  destruct (Nat.leb_spec (length id + S (length rest)) (length id)); [lia|].
  rewrite rd_app_mid by auto. reflexivity.
Qed.

Lemma dol_decode_total buf : bytes buf -> exists r e, dol_decode buf = Ret (r, e) /\
  (r <= 0 /\ e = None /\ (r = 0 <-> buf = []) \/
   exists id n rest, buf = id ++ n :: rest /\ identifier id /\ is_byte n /\
     r = Zlen id + 1 /\ e = Some (be id, n)).
Proof.
  intros Hb. unfold dol_decode. destruct (Nat.eqb_spec (length buf) 0) as [E|E].
  { do 2 eexists. split; [reflexivity|]. left. destruct buf; [|discriminate]. repeat split; auto; lia. }
  assert (Hn : buf <> []) by (intros ->; apply E; reflexivity).
  destruct (Nat.ltb_spec (length buf) 2).
  { do 2 eexists. split; [reflexivity|]. left. repeat split; try lia. intros; contradiction. }
  destruct (tag_decode_total buf Hb) as (r & t & Et & Hr). rewrite Et; cbn [bind].
  destruct (Z.leb_spec r 0) as [Hr0|Hr0].
  { do 2 eexists. split; [reflexivity|]. left. repeat split; try lia.
    - intros ->. eapply tag_decode_zero; eauto.
    - intros; contradiction. }
  destruct (tag_decode_sound buf r t Hb Et Hr0) as (id & rest & -> & Hid & -> & ->).
  replace (Z.to_nat (Zlen id)) with (length id) by lia.
  destruct (Nat.leb_spec (length (id ++ rest)) (length id)) as [Hle|Hle].
  { do 2 eexists. split; [reflexivity|]. left. repeat split; try lia. intros; contradiction. }
  destruct rest as [|n rest]; [rewrite app_nil_r in Hle; lia|].
  rewrite rd_app_mid by auto. cbn [bind]. do 2 eexists. split; [reflexivity|]. right.
  exists id, n, rest. repeat (split; auto).
  - apply bytes_app in Hb. destruct Hb as [_ Hb]. inversion Hb; subst. unfold is_byte in *; lia.
  - apply bytes_app in Hb. destruct Hb as [_ Hb]. inversion Hb; subst. unfold is_byte in *; lia.
Qed.

Lemma dol_itr_step buf : bytes buf -> exists r e itr', dol_itr_next buf = Ret (r, e, itr') /\
  (r <= 0 /\ e = None /\ (r = 0 <-> buf = []) \/
   exists id n, buf = id ++ n :: itr' /\ identifier id /\ is_byte n /\
     r = Zlen id + 1 /\ e = Some (be id, n)).
Proof.
  intros Hb. destruct (dol_decode_total buf Hb) as (r & e & E & H). unfold dol_itr_next.
  rewrite E; cbn [bind]. destruct H as [(H1 & H2 & H3)|(id & n & rest & -> & Hid & Hn & -> & ->)].
  - destruct (Z.ltb_spec 0 r); [lia|]. do 3 eexists. split; [reflexivity|]. left; auto.
  - destruct (Z.ltb_spec 0 (Zlen id + 1)); [|lia].
    replace (Z.to_nat (Zlen id + 1)) with (length (id ++ [n])) by (rewrite app_length; cbn [length]; lia).
    replace (id ++ n :: rest) with ((id ++ [n]) ++ rest) by (now rewrite <- app_assoc).
    rewrite sub_rest by (rewrite !app_length; lia). rewrite skipn_length_app.
    do 3 eexists. split; [reflexivity|]. right. exists id, n. rewrite <- app_assoc. auto.
Qed.

Lemma dol_inv_nil es : dol [] es -> es = [].
Proof.
  intros H. inversion H as [|id n rest es' Hid Hn Hr E]; subst; auto.
  destruct id; discriminate.
Qed.

Lemma dol_bytes buf es : dol buf es -> bytes buf.
Proof.
  induction 1 as [|id n rest es Hid Hn H IH]; auto.
  apply bytes_app_intro; [now apply identifier_bytes|]. now apply bytes_cons.
Qed.

Lemma dol_itr_next_cons id n rest : identifier id ->
  dol_itr_next (id ++ n :: rest) = Ret (Zlen id + 1, Some (be id, n), rest).
Proof.
  intros Hid. unfold dol_itr_next. rewrite dol_decode_complete by auto. cbn [bind].
  destruct (Z.ltb_spec 0 (Zlen id + 1)); [|lia].
  replace (Z.to_nat (Zlen id + 1)) with (length (id ++ [n])) by (rewrite app_length; cbn [length]; lia).
  replace (id ++ n :: rest) with ((id ++ [n]) ++ rest) by (now rewrite <- app_assoc).
  rewrite sub_rest by (rewrite !app_length; lia). now rewrite skipn_length_app.
Qed.

(** If the buffer is a DOL, its first entry is what the iterator gives. *)
Lemma dol_uncons id n rest es : identifier id -> dol (id ++ n :: rest) es ->
  exists es', es = (be id, n) :: es' /\ dol rest es'.
Proof.
  intros Hid H. inversion H as [E|id' n' rest' es' Hid' Hn' H' E]; subst.
  - exfalso. destruct id; discriminate.
  - pose proof (dol_itr_next_cons id n rest Hid) as E1.
    pose proof (dol_itr_next_cons id' n' rest' Hid') as E2.
    rewrite E in E2. rewrite E1 in E2. injection E2 as E3 E4 E5 E6. subst. exists es'.
    split; [congruence|auto].
Qed.

Lemma dol_itr_all_run fuel : forall buf, bytes buf -> (length buf < fuel)%nat ->
  exists es e, dol_itr_all fuel buf = Ret (es, e) /\ e <= 0 /\ (e = 0 <-> dol buf es) /\
    (forall es', dol buf es' -> e = 0 /\ es' = es).
Proof.
  induction fuel as [|fuel IH]; intros buf Hb Hf; [lia|]. cbn [dol_itr_all].
  destruct (dol_itr_step buf Hb) as (r & e & itr' & E & H). rewrite E; cbn [bind].
  destruct H as [(H1 & H2 & H3)|(id & n & -> & Hid & Hn & -> & ->)].
  - destruct (Z.leb_spec r 0); [|lia]. exists [], r. split; [reflexivity|]. split; [exact H1|]. split.
    + rewrite H3. split; [intros ->; constructor|]. intros Hd; inversion Hd; reflexivity.
    + intros es' Hd. inversion Hd as [HH|id n rest es2 Hid Hn Hr HH]; subst.
      * split; [apply H3|]; reflexivity.
      * exfalso. rewrite dol_itr_next_cons in E by assumption. inversion E; subst; lia.
  - pose proof (identifier_length _ Hid). destruct (Z.leb_spec (Zlen id + 1) 0); [lia|].
    destruct (IH itr') as (es & x & E1 & H4 & H5 & H6).
    { apply bytes_app in Hb. destruct Hb as [_ Hb]. inversion Hb; auto. }
    { rewrite app_length in Hf; cbn [length] in Hf; lia. }
    rewrite E1; cbn [bind]. exists ((be id, n) :: es), x. split; [auto|]. split; [auto|]. split.
    + rewrite H5. split; [intros; constructor; auto|].
      intros Hd. apply dol_uncons in Hd; auto. destruct Hd as (es' & Hee & Hd). inversion Hee; subst; auto.
    + intros es' Hd. apply dol_uncons in Hd; auto. destruct Hd as (es2 & -> & Hd).
      apply H6 in Hd. destruct Hd as [Hd ->]. auto.
Qed.

Lemma dol_total_range es : Forall (fun e => is_byte (snd e)) es -> 0 <= dol_total es <= 255 * Zlen es.
Proof.
  induction 1 as [|e es He H IH]; [unfold dol_total; cbn; lia|].
  cbn [dol_total fold_right]. fold (dol_total es). unfold is_byte, Zlen in *; cbn [length]. lia.
Qed.
Lemma dol_entries_byte buf es : dol buf es -> Forall (fun e => is_byte (snd e)) es /\
   (2 * length es <= length buf)%nat.
Proof.
  induction 1 as [|id n rest es Hid Hn H [IH1 IH2]]; [split; [constructor|auto]|].
  split; [constructor; auto|]. pose proof (identifier_length _ Hid).
  rewrite app_length; cbn [length]. lia.
Qed.

Lemma dol_length_run fuel : forall buf total, bytes buf -> (length buf < fuel)%nat ->
  0 <= total -> total + 128 * Zlen buf < 2147483648 ->
  exists r, dol_length_loop fuel buf total = Ret r /\
   (forall es, dol buf es -> r = total + dol_total es) /\ ((forall es, ~ dol buf es) -> r = -3).
Proof.
  induction fuel as [|fuel IH]; intros buf total Hb Hf H0 Hm; [lia|]. cbn [dol_length_loop].
  destruct (dol_itr_step buf Hb) as (r & e & itr' & E & H). rewrite E; cbn [bind].
  destruct H as [(H1 & H2 & H3)|(id & n & -> & Hid & Hn & -> & ->)].
  - destruct (Z.leb_spec r 0); [|lia]. eexists. split; [reflexivity|]. split.
    + intros es Hd. inversion Hd as [HH|id n rest es2 Hid Hn Hr HH]; subst.
      * assert (r = 0) by (apply H3; auto). subst r. cbn. lia.
      * exfalso. rewrite dol_itr_next_cons in E by auto. inversion E; subst; lia.
    + intros Hd. destruct (Z.eqb_spec r 0); auto. exfalso. apply (Hd []).
      replace buf with (@nil Z) by (symmetry; apply H3; auto). constructor.
  - pose proof (identifier_length _ Hid). destruct (Z.leb_spec (Zlen id + 1) 0); [lia|].
    rewrite app_length in Hf; cbn [length] in Hf.
    unfold Zlen in Hm; rewrite app_length in Hm; cbn [length] in Hm. unfold is_byte in Hn.
    destruct (Z.ltb_spec 2147483647 (total + n)); [lia|].
    destruct (IH itr' (total + n)) as (r2 & E2 & H5 & H6).
    { apply bytes_app in Hb. destruct Hb as [_ Hb]. inversion Hb; auto. }
    { lia. } { lia. } { lia. }
    exists r2. split; [exact E2|]. split.
    + intros es Hd. apply dol_uncons in Hd; auto. destruct Hd as (es' & -> & Hd).
      apply H5 in Hd. cbn [dol_total fold_right snd]. fold (dol_total es'). lia.
    + intros Hd. apply H6. intros es Hes. apply (Hd ((be id, n) :: es)). constructor; auto.
Qed.

Lemma dol_length_ok buf : bytes buf -> buf <> [] -> Zlen buf < 16777216 ->
  exists r, dol_compute_data_length buf = Ret r /\
   (forall es, dol buf es -> r = dol_total es) /\ ((forall es, ~ dol buf es) -> r = -3).
Proof.
  intros Hb Hn Hm. unfold dol_compute_data_length. destruct (Nat.eqb_spec (length buf) 0) as [E|E].
  { destruct buf; [contradiction|discriminate]. }
  apply dol_length_run; auto; lia.
Qed.

(** ** Building data *)
Lemma find_tag_spec tag l f : find_tag tag l = Some f <->
  exists pre post, l = pre ++ f :: post /\ Forall (fun g => f_tag g <> tag) pre /\ f_tag f = tag.
Proof.
  unfold find_tag. induction l as [|g l IH]; cbn [find].
  - split; [discriminate|]. intros (pre & post & E & _). destruct pre; discriminate.
  - destruct (Z.eqb_spec (f_tag g) tag) as [Ht|Ht].
    + split.
      * intros E; inversion E; subst. exists [], l. auto.
      * intros (pre & post & E & Hp & Hf). destruct pre as [|x pre]; inversion E; subst; auto.
        inversion Hp; contradiction.
    + rewrite IH. split; intros (pre & post & E & Hp & Hf).
      * subst l. exists (g :: pre), post. split; auto.
      * destruct pre as [|x pre]; inversion E; subst; [contradiction|].
        inversion Hp; subst. exists pre, post. auto.
Qed.
Lemma find_tag_none tag l : find_tag tag l = None <-> Forall (fun g => f_tag g <> tag) l.
Proof.
  unfold find_tag. induction l as [|g l IH]; cbn [find].
  - split; [constructor|auto].
  - destruct (Z.eqb_spec (f_tag g) tag) as [Ht|Ht].
    + split; [discriminate|]. intros H; inversion H; contradiction.
    + rewrite IH. split; [constructor; auto|]. intros H; inversion H; auto.
Qed.
Lemma find_in_sources_spec tag sources f : find_in_sources tag sources = Some f <->
  in_sources sources tag f.
Proof.
  unfold in_sources. induction sources as [|s sources IH]; cbn [find_in_sources].
  - split; [discriminate|]. intros (b & src & a & pre & post & E & _). destruct b; discriminate.
  - destruct (find_tag tag s) as [g|] eqn:Eg.
    + split.
      * intros E; inversion E; subst. apply find_tag_spec in Eg.
        destruct Eg as (pre & post & -> & Hp & Hf). exists [], (pre ++ f :: post), sources, pre, post. auto.
      * intros (b & src & a & pre & post & E & Hb & Hs & Hp & Hf).
        destruct b as [|x b]; inversion E; subst.
        -- assert (Q : find_tag (f_tag f) (pre ++ f :: post) = Some f) by (apply find_tag_spec; eauto).
           congruence.
        -- inversion Hb as [|? ? Hx]; subst. apply find_tag_none in Hx. congruence.
    + rewrite IH. split; intros (b & src & a & pre & post & E & Hb & Hs & Hp & Hf).
      * exists (s :: b), src, a, pre, post. subst sources. repeat (split; auto).
        constructor; auto. now apply find_tag_none.
      * destruct b as [|x b]; inversion E; subst.
        -- assert (Q : find_tag (f_tag f) (pre ++ f :: post) = Some f) by (apply find_tag_spec; eauto).
           congruence.
        -- inversion Hb; subst. exists b, (pre ++ f :: post), a, pre, post. auto.
Qed.
Lemma find_in_sources_none tag sources : find_in_sources tag sources = None <->
  Forall (Forall (fun g => f_tag g <> tag)) sources.
Proof.
  induction sources as [|s sources IH]; cbn [find_in_sources].
  - split; [constructor|auto].
  - destruct (find_tag tag s) as [g|] eqn:Eg.
    + split; [discriminate|]. intros H; inversion H as [|? ? Hx]; subst.
      apply find_tag_none in Hx. congruence.
    + rewrite IH. split; [constructor; auto; now apply find_tag_none|]. intros H; inversion H; auto.
Qed.

Lemma terminal_n_spec tag : is_terminal_format_n tag = true <-> In tag numeric_tags.
Proof.
  unfold is_terminal_format_n. rewrite existsb_exists. unfold numeric_tags. cbn [In].
  split.
  - intros (x & Hx & E). apply Z.eqb_eq in E. subst x. tauto.
  - intros H. exists tag. split; [tauto|apply Z.eqb_refl].
Qed.

Lemma in_sources_wf sources tag f : wf_sources sources -> in_sources sources tag f ->
  wf_field f /\ f_tag f = tag.
Proof.
  intros Hw (b & src & a & pre & post & -> & _ & -> & _ & Hf). split; auto.
  unfold wf_sources in Hw. rewrite Forall_app in Hw. destruct Hw as [_ Hw].
  inversion Hw as [|? ? Hx]; subst. rewrite Forall_app in Hx. destruct Hx as [_ Hx]. now inversion Hx.
Qed.

Lemma entry_data_ok sources tag n : wf_sources sources -> is_byte n ->
  exists v, dol_entry_data (find_in_sources tag sources) n = Ret v /\
    entry_data sources (tag, n) v /\ Zlen v = n.
Proof.
  intros Hw Hn. unfold is_byte in Hn. unfold dol_entry_data.
  destruct (find_in_sources tag sources) as [f|] eqn:Ef.
  - apply find_in_sources_spec in Ef. destruct (in_sources_wf _ _ _ Hw Ef) as [Hwf Ht].
    unfold wf_field in Hwf. rewrite Hwf.
    destruct (Z.eqb_spec (Zlen (f_val f)) n) as [E|E].
    + rewrite sub_Ret by lia. replace (Z.to_nat n) with (length (f_val f)) by lia.
      cbn [skipn]. rewrite firstn_all. eexists. split; [reflexivity|]. split; auto. eapply ed_exact; eauto.
    + rewrite Ht. destruct (is_terminal_format_n tag) eqn:Etn.
      * apply terminal_n_spec in Etn. destruct (Z.ltb_spec n (Zlen (f_val f))).
        -- rewrite sub_Ret by lia. set (k := Z.to_nat (Zlen (f_val f) - n)).
           rewrite firstn_all2 by (rewrite skipn_length; lia).
           eexists. split; [reflexivity|].
           assert (HL : Zlen (skipn k (f_val f)) = n) by (unfold Zlen; rewrite skipn_length; lia).
           split; auto. eapply (ed_cut_left sources tag n f (firstn k (f_val f))); eauto.
           ++ symmetry; apply firstn_skipn.
           ++ intros Hx. apply (f_equal (@length Z)) in Hx. rewrite firstn_length_le in Hx by lia. cbn in Hx. lia.
        -- rewrite sub_Ret by lia. cbn [skipn]. rewrite firstn_all2 by lia. cbn [bind].
           eexists. split; [reflexivity|]. split.
           ++ eapply ed_pad_left; eauto; lia.
           ++ rewrite Zlen_app. unfold Zlen at 1. rewrite repeat_length. lia.
      * assert (Htn : ~ In tag numeric_tags) by (rewrite <- terminal_n_spec; congruence).
        destruct (Z.ltb_spec n (Zlen (f_val f))).
        -- rewrite sub_Ret by lia. cbn [Z.to_nat skipn].
           eexists. split; [reflexivity|].
           assert (HL : Zlen (firstn (Z.to_nat n) (f_val f)) = n) by (unfold Zlen; rewrite firstn_length_le; lia).
           split; auto. eapply (ed_cut_right sources tag n f _ (skipn (Z.to_nat n) (f_val f))); eauto.
           ++ symmetry; apply firstn_skipn.
           ++ intros Hx. apply (f_equal (@length Z)) in Hx. rewrite skipn_length in Hx. cbn in Hx. lia.
        -- rewrite sub_Ret by lia. cbn [skipn]. rewrite firstn_all2 by lia. cbn [bind].
           eexists. split; [reflexivity|]. split.
           ++ eapply ed_pad_right; eauto; lia.
           ++ rewrite Zlen_app. unfold Zlen at 2. rewrite repeat_length. lia.
  - eexists. split; [reflexivity|]. split.
    + apply ed_missing. now apply find_in_sources_none.
    + unfold Zlen. rewrite repeat_length. lia.
Qed.

(** The specification determines the octets. *)
Lemma entry_data_fun sources e v1 v2 : entry_data sources e v1 -> entry_data sources e v2 -> v1 = v2.
Proof.
  intros H1 H2.
  assert (ND : forall tag f, Forall (Forall (fun g => f_tag g <> tag)) sources ->
                in_sources sources tag f -> False).
  { intros tag f HF HI. apply find_in_sources_none in HF. apply find_in_sources_spec in HI. congruence. }
  assert (FU : forall tag f g, in_sources sources tag f -> in_sources sources tag g -> f = g).
  { intros tag f g HF HI. apply find_in_sources_spec in HF. apply find_in_sources_spec in HI. congruence. }
  assert (LN : forall (l : list Z), l <> [] -> 0 < Zlen l) by (intros [|? ?]; [congruence|unfold Zlen; cbn [length]; lia]).
  assert (AP : forall (a b c d : list Z), a ++ b = c ++ d -> Zlen b = Zlen d -> b = d /\ a = c).
  { intros a b c d E Hl. assert (length a = length c).
    { apply (f_equal (@length Z)) in E. rewrite !app_length in E. lia. }
    apply app_eq_app in E. destruct E as (l & [[E1 E2]|[E1 E2]]); subst.
    - rewrite app_length in H. assert (l = []) by (destruct l; cbn in H; auto; lia). subst. rewrite app_nil_r. auto.
    - rewrite app_length in H. assert (l = []) by (destruct l; cbn in H; auto; lia). subst. rewrite app_nil_r. auto. }
  inversion H1; subst; inversion H2; subst; try reflexivity;
    try (exfalso; eapply ND; eassumption); try contradiction;
    match goal with Ha : in_sources _ _ ?f, Hb : in_sources _ _ ?g |- _ =>
       assert (f = g) by (eapply FU; eauto); subst end;
    repeat match goal with
      | H : f_val ?f = ?a ++ ?b |- _ =>
        match goal with
        | K : Zlen (f_val f) = Zlen a + Zlen b |- _ => fail 1
        | _ => assert (Zlen (f_val f) = Zlen a + Zlen b) by (rewrite H; apply Zlen_app)
        end
      | H : ?l <> [] |- _ => apply LN in H
      end;
    repeat match goal with H : context [Zlen (_ ++ _)] |- _ => rewrite Zlen_app in H end;
    auto; try lia.
  - match goal with Ha : f_val ?f = _ ++ _, Hb : f_val ?f = _ ++ _ |- _ => rewrite Ha in Hb; apply AP in Hb; [tauto|lia] end.
  - match goal with Ha : f_val ?f = ?a ++ ?b, Hb : f_val ?f = ?c ++ ?d |- _ => rewrite Ha in Hb; apply AP in Hb; [tauto|lia] end.
  - repeat f_equal. lia.
  - repeat f_equal. lia.
Qed.

Lemma build_run fuel : forall itr sources done tail, bytes itr -> wf_sources sources ->
  (length itr < fuel)%nat ->
  exists r data dl,
    dol_build_loop fuel itr sources (done ++ tail) (length done) (Zlen tail) = Ret (r, data, dl) /\
    length data = (length done + length tail)%nat /\ 0 <= dl <= Zlen data /\
    firstn (length done) data = done /\
    ((r = 0 /\ exists es vs, dol itr es /\ dol_total es <= Zlen tail /\
        Forall2 (entry_data sources) es vs /\ Zlen (concat vs) = dol_total es /\
        data = done ++ concat vs ++ skipn (length (concat vs)) tail /\
        dl = Zlen done + dol_total es) \/
     (r = 1 /\ forall es, dol itr es -> Zlen tail < dol_total es) \/
     (r = -5 /\ forall es, ~ dol itr es)).
Proof.
  induction fuel as [|fuel IH]; intros itr sources done tail Hb Hw Hf; [lia|]. cbn [dol_build_loop].
  destruct (dol_itr_step itr Hb) as (r & e & itr' & E & H). rewrite E; cbn [bind].
  destruct H as [(H1 & H2 & H3)|(id & n & -> & Hid & Hn & -> & ->)].
  - destruct (Z.leb_spec r 0); [|lia]. destruct (Z.eqb_spec r 0) as [H0|H0].
    + do 3 eexists. split; [reflexivity|]. split; [apply app_length|]. split; [rewrite Zlen_app; lia|].
      split; [apply firstn_length_app|]. left. split; [auto|]. exists [], [].
      rewrite (proj1 H3 H0). split; [constructor|]. split; [cbn; lia|]. split; [constructor|].
      split; [reflexivity|]. split; [reflexivity|]. cbn. lia.
    + do 3 eexists. split; [reflexivity|]. split; [apply app_length|].
      split; [rewrite Zlen_app; lia|]. split; [apply firstn_length_app|]. right; right.
      split; [auto|]. intros es Hd. inversion Hd as [HH|id n rest es2 Hid Hn Hr HH]; subst.
      * apply H0, H3; auto.
      * rewrite dol_itr_next_cons in E by auto. inversion E; subst; lia.
  - pose proof (identifier_length _ Hid). destruct (Z.leb_spec (Zlen id + 1) 0); [lia|].
    assert (Hb' : bytes itr').
    { apply bytes_app in Hb. destruct Hb as [_ Hb]. inversion Hb; auto. }
    assert (Hn' : 0 <= n < 256) by (unfold is_byte in Hn; lia).
    destruct (Z.ltb_spec (Zlen tail) n) as [Hlt|Hge].
    + do 3 eexists. split; [reflexivity|]. split; [apply app_length|].
      split; [rewrite Zlen_app; lia|]. split; [apply firstn_length_app|]. right; left. split; [auto|].
      intros es Hd. apply dol_uncons in Hd; auto. destruct Hd as (es' & -> & Hd).
      apply dol_entries_byte in Hd. destruct Hd as [Hd _]. apply dol_total_range in Hd.
      cbn [dol_total fold_right snd]. fold (dol_total es'). lia.
    + destruct (entry_data_ok sources (be id) n Hw) as (v & Ev & Hv & Hvl); [unfold is_byte; lia|].
      rewrite Ev; cbn [bind].
      rewrite put_Ret by (rewrite app_length; lia). cbn [bind].
      rewrite firstn_length_app.
      assert (Hsk : skipn (length done + length v) (done ++ tail) = skipn (length v) tail).
      { rewrite <- skipn_skipn'. now rewrite skipn_length_app. }
      rewrite Hsk.
      set (tail' := skipn (length v) tail).
      assert (Ht' : Zlen tail' = Zlen tail - n) by (subst tail'; unfold Zlen; rewrite skipn_length; lia).
      replace (done ++ v ++ tail') with ((done ++ v) ++ tail') by (now rewrite <- app_assoc).
      replace (length done + Z.to_nat n)%nat with (length (done ++ v)) by (rewrite app_length; lia).
      rewrite <- Ht'.
      destruct (IH itr' sources (done ++ v) tail' Hb' Hw) as (r & data & dl & E1 & HL & Hdl & Hfn & Hcase).
      { rewrite app_length in Hf; cbn [length] in Hf; lia. }
      exists r, data, dl. split; [exact E1|]. split.
      { rewrite HL, app_length. lia. }
      split; [auto|]. split.
      { rewrite <- (firstn_skipn (length (done ++ v)) data), Hfn.
        rewrite <- app_assoc. apply firstn_length_app. }
      destruct Hcase as [(-> & es & vs & Hd & Htot & Hvs & Hcl & Hdata & Hdl')|[(-> & Hno)|(-> & Hno)]].
      * left. split; auto. exists ((be id, n) :: es), (v :: vs). split; [constructor; auto|].
        cbn [dol_total fold_right snd]. fold (dol_total es). split; [lia|]. split; [constructor; auto|].
        cbn [concat]. rewrite Zlen_app. split; [lia|]. split.
        -- rewrite Hdata. rewrite <- !app_assoc. do 3 f_equal.
           subst tail'. rewrite skipn_skipn', app_length. f_equal; lia.
        -- rewrite Zlen_app in Hdl'. lia.
      * right; left. split; auto. intros es Hd. apply dol_uncons in Hd; auto.
        destruct Hd as (es' & -> & Hd). apply Hno in Hd.
        cbn [dol_total fold_right snd]. fold (dol_total es'). lia.
      * right; right. split; auto. intros es Hd. apply dol_uncons in Hd; auto.
        destruct Hd as (es' & -> & Hd). eapply Hno; eauto.
Qed.

Lemma build_any buf sources data : bytes buf -> buf <> [] -> wf_sources sources -> sources <> [] ->
  data <> [] ->
  exists r data' dl, dol_build_data buf sources data = Ret (r, data', dl) /\
    length data' = length data /\ 0 <= dl <= Zlen data /\
    ((r = 0 /\ exists es vs, dol buf es /\ dol_total es <= Zlen data /\
        Forall2 (entry_data sources) es vs /\ Zlen (concat vs) = dol_total es /\
        data' = concat vs ++ skipn (length (concat vs)) data /\ dl = dol_total es) \/
     (r = 1 /\ forall es, dol buf es -> Zlen data < dol_total es) \/
     (r = -5 /\ forall es, ~ dol buf es)).
Proof.
  intros Hb Hn Hw Hs Hd. unfold dol_build_data.
  destruct (Nat.eqb_spec (length buf) 0); [destruct buf; [contradiction|discriminate]|].
  destruct (Nat.eqb_spec (length sources) 0); [destruct sources; [contradiction|discriminate]|].
  destruct (Nat.eqb_spec (length data) 0); [destruct data; [contradiction|discriminate]|].
  cbn [orb].
  destruct (build_run (S (length buf)) buf sources [] data Hb Hw) as (r & d & dl & E & HL & Hdl & _ & H); [lia|].
  exists r, d, dl. cbn [app length] in *. split; [exact E|]. split; [exact HL|].
  split; [unfold Zlen in *; rewrite HL in Hdl; cbn in Hdl; lia|]. exact H.
Qed.

(** Valid DOL, enough room: the exact result. *)
Lemma build_valid buf es sources data : dol buf es -> es <> [] -> wf_sources sources -> sources <> [] ->
  data <> [] -> dol_total es <= Zlen data ->
  exists vs, Forall2 (entry_data sources) es vs /\ Zlen (concat vs) = dol_total es /\
    dol_build_data buf sources data =
      Ret (0, concat vs ++ skipn (length (concat vs)) data, dol_total es).
Proof.
  intros Hd He Hw Hs Hdt Ht.
  assert (Hn : buf <> []). { intros ->. apply dol_inv_nil in Hd. contradiction. }
  destruct (build_any buf sources data (dol_bytes _ _ Hd) Hn Hw Hs Hdt)
    as (r & d & dl & E & _ & _ & [(-> & es' & vs & Hd' & _ & Hvs & Hc & -> & ->)|[(-> & H)|(-> & H)]]).
  - destruct (dol_itr_all_run (S (length buf)) buf (dol_bytes _ _ Hd) ltac:(lia)) as (es0 & x & _ & _ & _ & U).
    apply U in Hd as U1. apply U in Hd' as U2. destruct U1 as [_ ->], U2 as [_ ->].
    exists vs. auto.
  - apply H in Hd. lia.
  - exfalso. eapply H; eauto.
Qed.

(** ** COMPACT-TLV *)
Lemma ctlv_decode_total buf : bytes buf -> exists r t, ctlv_decode buf = Ret (r, t) /\
  (r <= 0 /\ t = None /\ (r = 0 <-> buf = []) \/
   exists tag v rest, buf = ctlv_enc tag v ++ rest /\ ctlv_ok (tag, v) /\
     r = Zlen v + 1 /\ t = Some (mkCtlv tag (Zlen v) v)).
Proof.
  intros Hb. unfold ctlv_decode. destruct buf as [|b buf].
  { do 2 eexists. split; [reflexivity|]. left. repeat split; auto; lia. }
  cbn [length Nat.eqb]. unfold rd; cbn [nth_error bind]. rewrite shiftr4, landF.
  inversion Hb as [|? ? Hbb Hbr]; subst. unfold is_byte in Hbb.
  unfold Zlen at 1; cbn [length]. destruct (Z.ltb_spec (Z.of_nat (S (length buf)) - 1) (b mod 16)).
  { do 2 eexists. split; [reflexivity|]. left. repeat split; auto; try lia. discriminate. }
  rewrite sub_Ret by (cbn [length]; lia). cbn [bind skipn].
  set (v := firstn (Z.to_nat (b mod 16)) buf).
  assert (Hv : Zlen v = b mod 16) by (subst v; unfold Zlen; rewrite firstn_length_le; lia).
  do 2 eexists. split; [reflexivity|]. right.
  exists (b / 16), v, (skipn (Z.to_nat (b mod 16)) buf). split.
  - unfold ctlv_enc. rewrite Hv. cbn [app]. subst v. rewrite firstn_skipn. f_equal. lia.
  - rewrite Hv. split; [|auto]. unfold ctlv_ok; cbn [fst snd]. rewrite Hv. split; [lia|]. split; [lia|].
    subst v; auto.
Qed.

Lemma ctlv_decode_complete tag v rest : ctlv_ok (tag, v) ->
  ctlv_decode (ctlv_enc tag v ++ rest) = Ret (Zlen v + 1, Some (mkCtlv tag (Zlen v) v)).
Proof.
  intros (Ht & Hl & Hb); cbn [fst snd] in *. unfold ctlv_decode, ctlv_enc. cbn [app length Nat.eqb].
  unfold rd; cbn [nth_error bind]. rewrite shiftr4, landF.
  pose proof (Zlen_nonneg v).
  replace ((tag * 16 + Zlen v) / 16) with tag by lia.
  replace ((tag * 16 + Zlen v) mod 16) with (Zlen v) by lia.
  unfold Zlen at 1; cbn [length]. rewrite app_length.
  destruct (Z.ltb_spec (Z.of_nat (S (length v + length rest)) - 1) (Zlen v)); [lia|].
  rewrite sub_Ret by (cbn [length]; rewrite app_length; lia). cbn [bind skipn].
  rewrite firstn_app_eq by lia. reflexivity.
Qed.

Lemma ctlv_next_complete tag v rest : ctlv_ok (tag, v) ->
  ctlv_itr_next (ctlv_enc tag v ++ rest) = Ret (Zlen v + 1, Some (mkCtlv tag (Zlen v) v), rest).
Proof.
  intros H. unfold ctlv_itr_next. rewrite ctlv_decode_complete by auto. cbn [bind].
  pose proof (Zlen_nonneg v). destruct (Z.leb_spec (Zlen v + 1) 0); [lia|].
  replace (Z.to_nat (Zlen v + 1)) with (length (ctlv_enc tag v)) by (unfold ctlv_enc; cbn [length]; lia).
  rewrite sub_rest by (rewrite app_length; lia). now rewrite skipn_length_app.
Qed.

Definition ctlv_of (o : Z * list Z) : ctlv := mkCtlv (fst o) (Zlen (snd o)) (snd o).

Lemma ctlv_itr_objs objs : Forall ctlv_ok objs -> forall fuel,
  (length (flat_map (fun o => ctlv_enc (fst o) (snd o)) objs) < fuel)%nat ->
  ctlv_itr_all fuel (flat_map (fun o => ctlv_enc (fst o) (snd o)) objs) = Ret (map ctlv_of objs, 0).
Proof.
  induction 1 as [|[tag v] objs Ho H IH]; intros fuel Hf; (destruct fuel as [|fuel]; [lia|]); cbn [ctlv_itr_all flat_map].
  - reflexivity.
  - cbn [flat_map fst snd] in *. rewrite ctlv_next_complete by auto. cbn [bind].
    pose proof (Zlen_nonneg v). destruct (Z.leb_spec (Zlen v + 1) 0); [lia|].
    rewrite IH; [reflexivity|]. rewrite app_length in Hf. unfold ctlv_enc in Hf at 1. cbn [length] in Hf. lia.
Qed.

Lemma ctlv_itr_any fuel : forall buf, bytes buf -> (length buf < fuel)%nat ->
  exists objs rest e, ctlv_itr_all fuel buf = Ret (map ctlv_of objs, e) /\
    Forall ctlv_ok objs /\ e <= 0 /\
    buf = flat_map (fun o => ctlv_enc (fst o) (snd o)) objs ++ rest /\ (e = 0 <-> rest = []) /\
    (forall tag v rest', ctlv_ok (tag, v) -> rest <> ctlv_enc tag v ++ rest').
Proof.
  induction fuel as [|fuel IH]; intros buf Hb Hf; [lia|]. cbn [ctlv_itr_all].
  destruct (ctlv_decode_total buf Hb) as (r & t & E & H).
  destruct H as [(H1 & -> & H3)|(tag & v & rest & -> & Hok & -> & ->)].
  - unfold ctlv_itr_next. rewrite E; cbn [bind]. destruct (Z.leb_spec r 0); [|lia]. cbn [bind].
    destruct (Z.leb_spec r 0); [|lia]. exists [], buf, r. repeat (split; auto); try apply H3.
    intros tag v rest' Hok Hx. subst buf. rewrite ctlv_decode_complete in E by auto. discriminate.
  - rewrite ctlv_next_complete by auto. cbn [bind].
    pose proof (Zlen_nonneg v). destruct (Z.leb_spec (Zlen v + 1) 0); [lia|].
    destruct (IH rest) as (objs & rest2 & e & E2 & H4 & H5 & H6 & H7 & H8).
    { apply bytes_app in Hb; tauto. }
    { rewrite app_length in Hf. unfold ctlv_enc in Hf. cbn [length] in Hf. lia. }
    rewrite E2; cbn [bind]. exists ((tag, v) :: objs), rest2, e. split; [reflexivity|].
    split; [constructor; auto|]. split; [auto|]. split; [|auto].
    cbn [flat_map fst snd]. rewrite <- app_assoc. now rewrite <- H6.
Qed.
