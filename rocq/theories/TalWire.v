(** What reading the records of an AFL sends to the card, through [ttl_transport]. *)
From Verif Require Import Base BaseLemmas BerModel TlvListModel TtlModel TtlSpec TtlProofs FieldsModel FieldsSpec FieldsProofs
  AppModel TalModel TalSpec TalProofs.

Lemma logged_respects {S} (card : cardfn S) : respects_buffer card -> respects_buffer (logged card).
Proof. intros R [s log] tx. specialize (R s tx). unfold logged. destruct (card s tx) as [s' r]. exact R. Qed.
Lemma logged_bytes {S} (card : cardfn S) : (forall s tx, bytes (snd (snd (card s tx)))) ->
  forall s tx, bytes (snd (snd (logged card s tx))).
Proof. intros R [s log] tx. specialize (R s tx). unfold logged. destruct (card s tx) as [s' r]. exact R. Qed.

Lemma of_tres_inv {S} (m : out (tres S)) a : of_tres m = Ret a -> exists t, m = Ret t /\ n_st a = o_card t.
Proof.
  unfold of_tres. intros E. apply bind_Ret_inv in E as (t & E1 & E). apply bind_Ret_inv in E as (d & _ & E).
  injection E as <-. eauto.
Qed.

Lemma x_read_sends {S} fuel (card : cardfn S) md junk st sfi rec a : 1 <= sfi <= 30 -> is_byte rec ->
  x_read (ttl_transport fuel (logged card) md junk) st sfi rec = Ret a ->
  exists g, snd (n_st a) = snd st ++ g /\ record_sent (sfi, rec) g.
Proof.
  intros Hs Hr E. apply of_tres_inv in E as (t & E & ->). destruct st as [s log].
  apply read_record_log in E; auto; [|unfold Zlen; rewrite repeat_length; vm_compute; discriminate].
  destruct E as (more & E & F). cbn [snd]. eexists. split; [exact E|]. exists more. split; auto.
Qed.

Lemma reads_wire {S} fuel (card : cardfn S) md junk st recs datas st' :
  reads (ttl_transport fuel (logged card) md junk) st recs datas st' ->
  Forall (fun q => 1 <= fst q <= 30 /\ is_byte (snd q)) recs ->
  exists gs, snd st' = snd st ++ concat gs /\ Forall2 record_sent recs gs.
Proof.
  induction 1 as [s|s sfi rec a recs datas s' E R0 SW _ IH]; intros F.
  - exists []. cbn [concat]. now rewrite app_nil_r.
  - apply Forall_cons_iff in F as [[F1 F2] F]. cbn [fst snd] in F1, F2. destruct (IH F) as (gs & E2 & G).
    apply x_read_sends in E as (g & Eg & Hg); auto. exists (g :: gs). cbn [concat]. split; [|constructor; auto].
    now rewrite E2, Eg, <- app_assoc.
Qed.

Lemma listed_range es : Forall afl_valid es -> Forall (fun q => 1 <= fst q <= 30 /\ is_byte (snd q)) (flat_map listed es).
Proof.
  intros V. apply Forall_forall. intros q Hq. apply in_flat_map in Hq as (e & He & Hq).
  rewrite Forall_forall in V. destruct (V e He) as (V1 & V2 & V3 & _).
  unfold listed in Hq. apply in_map_iff in Hq as (i & <- & Hi). apply in_seq in Hi. cbn [fst snd]. unfold is_byte. lia.
Qed.

(** Entries that end before record 255: the records read are the first of those listed. *)
Lemma afl_wire {S} fuel (card : cardfn S) md junk : respects_buffer card -> (forall s tx, bytes (snd (snd (card s tx)))) ->
  bytes junk -> md = ModeApdu \/ (255 <= length junk)%nat -> forall es rfuel s log l r l' s' log',
  Forall afl_valid es -> Forall (fun e => a_last e < 255) es -> (1 <= length es <= 63)%nat ->
  read_afl_records (ttl_transport fuel (logged card) md junk) rfuel (s, log) (flat_map afl_octets es) l =
    Ret (r, l', (s', log')) ->
  exists done todo gs, flat_map listed es = done ++ todo /\ log' = log ++ concat gs /\ Forall2 record_sent done gs /\
    (r = 0 \/ r = TAL_ODA_RECORD_INVALID -> todo = []).
Proof.
  intros R B Bj M es rfuel s log l r l' s' log' V L N E.
  apply read_afl_outcome in E; auto; [|apply ttl_transport_wf; auto using logged_respects, logged_bytes].
  destruct E as (done & todo & datas & fs & oda & s1 & D & Rd & _ & C).
  pose proof (listed_range es V) as Hr. rewrite D in Hr. apply Forall_app in Hr as [H1 H2].
  destruct (reads_wire _ _ _ _ _ _ _ _ Rd H1) as (gs & G1 & G2). cbn [snd] in G1.
  destruct C as [[-> C]|(sfi & rec & rest & a & r' & fs' & -> & X & F & C & _)].
  - exists done, [], gs. injection C as -> -> C3. subst s1. cbn [snd] in G1. auto.
  - injection C as -> _ C. apply Forall_cons_iff in H2 as [[F1 F2] _]. cbn [fst snd] in F1, F2.
    apply x_read_sends in X as (g & Eg & Hg); auto.
    exists (done ++ [(sfi, rec)]), rest, (gs ++ [g]). split; [now rewrite D, <- app_assoc|]. split.
    + rewrite concat_app. cbn [concat]. rewrite app_nil_r, app_assoc, <- G1, <- Eg, <- C. reflexivity.
    + split; [apply Forall2_app; auto|].
      intros Hx. exfalso. unfold TAL_ODA_RECORD_INVALID in Hx.
      destruct F as [? | | | r' ? ? ? [[-> _]| ->] _]; cbv in Hx; intuition discriminate.
Qed.

(** Any AFL, on success. *)
Lemma afl_wire_success {S} fuel (card : cardfn S) md junk : respects_buffer card -> (forall s tx, bytes (snd (snd (card s tx)))) ->
  bytes junk -> md = ModeApdu \/ (255 <= length junk)%nat -> forall afl rfuel s log l r l' s' log',
  bytes afl -> r = 0 \/ r = TAL_ODA_RECORD_INVALID ->
  read_afl_records (ttl_transport fuel (logged card) md junk) rfuel (s, log) afl l = Ret (r, l', (s', log')) ->
  exists es gs, afl = flat_map afl_octets es /\ Forall afl_valid es /\ log' = log ++ concat gs /\
    Forall2 record_sent (flat_map listed es) gs.
Proof.
  intros R B Bj M afl rfuel s log l r l' s' log' Ba Hr E.
  apply read_afl_sound in E; auto; [|apply ttl_transport_wf; auto using logged_respects, logged_bytes].
  destruct E as (es & datas & fs & oda & -> & V & Rd & _).
  destruct (reads_wire _ _ _ _ _ _ _ _ Rd (listed_range es V)) as (gs & G1 & G2). cbn [snd] in G1. exists es, gs. auto.
Qed.
