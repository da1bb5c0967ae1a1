(** Lemmas on who owns the fields of applications. *)
From Verif Require Import Base BaseLemmas BerModel TlvListModel TlvListSpec TlvListProofs TlvModel DolModel TtlModel FieldsModel
  AppModel TalModel EmvModel HoldModel HoldSpec OwnSpec OwnProofs HoldProofs CandModel CandSpec.
Local Notation length := List.length.
Ltac own X := apply (occs_eq _ X); [occs|assumption].

Lemma app_at_mild h h' Y A ha a : app_at h A ha a -> mild h h' Y -> incl A Y -> app_at h' A ha a.
Proof. intros (R & B) M I. split; [eapply rep_mild; eassumption|exact B]. Qed.
Lemma apps_at_mild h h' Y As has apps : apps_at h As has apps -> mild h h' Y -> incl As Y -> apps_at h' As has apps.
Proof.
  intros H M. induction H as [|A ha a As has apps HA H IH]; intros I; [constructor|].
  constructor; [eapply app_at_mild; [exact HA|exact M|]|apply IH]; intros z Hz; apply I, in_or_app; auto.
Qed.
Lemma apps_at_snoc h As has apps A ha a : apps_at h As has apps -> app_at h A ha a ->
  apps_at h (As ++ A) (has ++ [ha]) (apps ++ [a]).
Proof.
  intros H HA. induction H as [|A0 ha0 a0 As has apps HA0 H IH]; cbn [app].
  - rewrite <- (app_nil_r A). constructor; [exact HA|constructor].
  - rewrite <- app_assoc. now constructor.
Qed.
Lemma t_free h l A fs O : rep h l A fs -> owns h (A ++ O) ->
  exists h', free_f h l = Ret h' /\ owns h' O /\ mild h h' O.
Proof.
  intros R H. unfold free_f. destruct (t_clear h l A fs O R H) as (h' & E & H' & M & _). rewrite E. cbn [bind]. eauto.
Qed.
Lemma t_free_all h0 As has apps : apps_at h0 As has apps -> forall h O, mild h0 h (As ++ O) -> owns h (As ++ O) ->
  exists h', free_all_f h has = Ret h' /\ owns h' O /\ mild h0 h' O.
Proof.
  intros H. induction H as [|A ha a As has apps (R & _) H IH]; intros h O M Hw; cbn [free_all_f].
  - exists h. split; [reflexivity|]. split; [exact Hw|exact M].
  - assert (R1 : rep h (ha_list ha) A (a_tlvs a)) by (eapply rep_mild; [exact R|exact M|incls]).
    destruct (t_free h (ha_list ha) A _ (As ++ O) R1 ltac:(own ((A ++ As) ++ O))) as (h1 & E & H1 & M1).
    rewrite E. cbn [bind]. apply IH; [|exact H1]. eapply mild_trans; [eapply mild_incl; [exact M|incls]|exact M1].
Qed.

(** Sorting and removing. *)
Lemma insert_at h A ha a : app_at h A ha a -> forall As has apps, apps_at h As has apps ->
  exists As', apps_at h As' (insert_c ha has) (insert_priority a apps) /\ forall z, occ As' z = occ (A ++ As) z.
Proof.
  intros HA As has apps H. induction H as [|B hb b As has apps HB H IH]; cbn [insert_c insert_priority].
  - exists (A ++ []). split; [constructor; [exact HA|constructor]|reflexivity].
  - pose proof HA as (_ & _ & _ & Ep & _). pose proof HB as (_ & _ & _ & Eb & _). rewrite Ep, Eb.
    assert (Here : exists As', apps_at h As' (ha :: hb :: has) (a :: b :: apps) /\ forall z, occ As' z = occ (A ++ B ++ As) z).
    { exists (A ++ B ++ As). split; [|reflexivity]. constructor; [exact HA|]. now constructor. }
    destruct (a_prio b =? 0); [exact Here|]. destruct (negb (a_prio a =? 0) && (a_prio a <? a_prio b))%bool; [exact Here|].
    destruct IH as (As' & H' & E'). exists (B ++ As'). split; [now constructor|].
    intros z. specialize (E' z). rewrite !occ_app in *. lia.
Qed.
Lemma sort_at h As has apps : apps_at h As has apps ->
  exists As', apps_at h As' (sort_c has) (sort_priority apps) /\ forall z, occ As' z = occ As z.
Proof.
  unfold sort_c, sort_priority. intros H.
  assert (G : forall Bs hb b, apps_at h Bs hb b ->
    exists As', apps_at h As' (fold_left (fun d a => insert_c a d) has hb) (fold_left (fun d a => insert_priority a d) apps b) /\
      forall z, occ As' z = occ (Bs ++ As) z).
  { induction H as [|A ha a As has apps HA H IH]; intros Bs hb b HB; cbn [fold_left].
    - exists Bs. split; [exact HB|]. intros z. now rewrite app_nil_r.
    - destruct (insert_at h A ha a HA _ _ _ HB) as (Cs & HC & EC). destruct (IH _ _ _ HC) as (Ds & HD & ED).
      exists Ds. split; [exact HD|]. intros z. rewrite ED. specialize (EC z). rewrite !occ_app in *. lia. }
  destruct (G [] [] [] (apps_none h)) as (As' & H' & E'). exists As'. split; [exact H'|exact E'].
Qed.
Lemma remove_at h As has apps i : apps_at h As has apps ->
  (nth_error has i = None /\ nth_error apps i = None) \/
  exists ha a A As', nth_error has i = Some ha /\ nth_error apps i = Some a /\ app_at h A ha a /\
    apps_at h As' (firstn i has ++ skipn (S i) has) (firstn i apps ++ skipn (S i) apps) /\
    forall z, occ As z = occ (A ++ As') z.
Proof.
  intros H. revert i. induction H as [|A ha a As has apps HA H IH]; intros [|i]; cbn [nth_error].
  - left. auto.
  - left. auto.
  - right. exists ha, a, A, As. cbn [firstn skipn app]. auto.
  - destruct (IH i) as [N|(hb & b & B & Bs & E1 & E2 & HB & HBs & EB)]; [left; exact N|right].
    exists hb, b, B, (A ++ Bs). split; [exact E1|]. split; [exact E2|]. split; [exact HB|].
    split; [cbn [firstn skipn app]; now constructor|]. intros z. specialize (EB z). rewrite !occ_app in *. lia.
Qed.
Lemma apps_nil h As has : apps_at h As has [] -> has = [] /\ As = [].
Proof. intros H. inversion H. auto. Qed.
Lemma apps_load h A ha a : app_at h A ha a -> exists n, load h (ha_aid ha) = Ret n /\ n_field n = a_aid a.
Proof. intros (R & W & _). exact (at_load _ _ _ _ _ _ R W). Qed.

Section Cand.
Context {T : Type} (x : transport T) (junk : list Z).

(** ** Creating an application *)
Definition relm (O : list nat) (h0 : heap) (v : option emvapp) (w : option happ * heap) : Prop :=
  let (ha, h) := w in
  match v, ha with
  | None, None => owns h O /\ mild h0 h O
  | Some a, Some ha => exists A, app_at h A ha a /\ owns h (A ++ O) /\ mild h0 h O
  | _, _ => False
  end.
Lemma drop_step O h0 h l A fs : rep h l A fs -> owns h (A ++ O) -> mild h0 h O ->
  in_step (relm O h0) (Ret None) (let* h := free_f h l in Ret (None, h)).
Proof.
  intros R H M. destruct (t_free h l A fs O R H) as (h' & E & H' & M'). rewrite E. cbn [bind]. apply step_ret.
  split; [exact H'|]. eapply mild_trans; eassumption.
Qed.
Lemma app_build_step O h0 h pse ps tag tl A fs : rep h tl A fs -> owns h (A ++ O) -> mild h0 h O ->
  match pse, ps with Some l, Some v => seen h l = Ret v | None, None => True | _, _ => False end ->
  in_step (relm O h0) (app_build junk ps tag fs) (app_build_f junk pse tag h tl).
Proof.
  intros R H M Hp. unfold app_build, app_build_f. destruct (t_find h tl A fs O tag R H) as (p & Ep & Hf). rewrite Ep. cbn [bind].
  destruct (find_tag tag fs) as [aid|]; [|subst p; exact (drop_step O h0 h tl A fs R H M)].
  destruct Hf as (q & -> & Hq). destruct (at_load _ _ _ _ _ _ R Hq) as (n & En & Ef). rewrite En. cbn [bind].
  assert (Es : match pse with Some l => let* v := seen h l in Ret (Some v) | None => Ret None end = Ret ps).
  { destruct pse as [l|], ps as [v|]; try contradiction; [|reflexivity]. now rewrite Hp. }
  rewrite Es. cbn [bind]. rewrite (t_seen h tl A fs O R H). cbn [bind]. rewrite Ef.
  apply step_same. intros [r name]. destruct (negb (r =? 0)); [exact (drop_step O h0 h tl A fs R H M)|].
  apply step_same. intros [prio conf]. apply step_ret. exists A. split; [|split; assumption].
  split; [exact R|]. split; [exact Hq|]. cbn [ha_name ha_prio ha_conf a_name a_prio a_conf]. auto.
Qed.
Lemma pse_create_step P O h pse ps entry : rep h pse P ps -> owns h (P ++ O) ->
  in_step (relm (P ++ O) h) (app_create_from_pse junk ps entry) (create_from_pse_f junk pse entry h).
Proof.
  intros RP H. unfold app_create_from_pse, create_from_pse_f, tlv_parse, tlv_parse_h.
  eapply step_bind; [exact (parse_step (P ++ O) _ _ h tlist_init [] [] (rep_init h) H)|].
  intros [r fs] [[r' h1] tl] (-> & A & R & H1 & M).
  destruct (negb (r =? 0)); [exact (drop_step _ _ _ _ _ _ R H1 M)|].
  refine (app_build_step _ _ _ _ _ _ _ _ _ R H1 M _).
  apply (t_seen h1 pse P ps (A ++ O)); [eapply rep_mild; [exact RP|exact M|incls]|own (A ++ P ++ O)].
Qed.
Lemma fci_create_step O h fci : owns h O ->
  in_step (relm O h) (app_create_from_fci junk fci) (create_from_fci_f junk fci h).
Proof.
  intros H. unfold app_create_from_fci, create_from_fci_f. apply step_same. intros [r t].
  pose proof (drop_step O h h tlist_init [] [] (rep_init h) H (mild_refl h O)) as D.
  destruct (negb (u64 r =? Zlen fci)); [exact D|]. destruct t as [t|]; [|reflexivity].
  destruct (negb (b_tag t =? 0x6F)); [exact D|]. unfold tlv_parse, tlv_parse_h.
  eapply step_bind; [exact (parse_step O _ _ h tlist_init [] [] (rep_init h) H)|].
  intros [r1 fs] [[r' h1] tl] (-> & A & R & H1 & M).
  destruct (negb (r1 =? 0)); [exact (drop_step _ _ _ _ _ _ R H1 M)|].
  exact (app_build_step _ _ _ None None _ _ _ _ R H1 M I).
Qed.

(** ** Lists of applications *)
Definition has_apps (O : list nat) (h0 h : heap) (has : list happ) (apps : list emvapp) : Prop :=
  exists As, apps_at h As has apps /\ owns h (As ++ O) /\ mild h0 h O.
Definition rel0 O h0 (v : list emvapp) (w : heap * list happ) : Prop := let (h, has) := w in has_apps O h0 h has v.
Definition rel1 O h0 (v : Z * list emvapp) (w : Z * heap * list happ) : Prop :=
  let (r, apps) := v in let '(r', h, has) := w in r' = r /\ has_apps O h0 h has apps.
Definition rel3 O h0 (v : Z * list emvapp * T) (w : Z * heap * list happ * T) : Prop :=
  let '(r, apps, s) := v in let '(r', h, has, s') := w in r' = r /\ s' = s /\ has_apps O h0 h has apps.
Lemma has_apps_trans O h0 h1 h has apps : mild h0 h1 O -> has_apps O h1 h has apps -> has_apps O h0 h has apps.
Proof. intros M (As & A & H & M'). exists As. split; [exact A|]. split; [exact H|]. eapply mild_trans; eassumption. Qed.

(** One more application: kept, or freed. *)
Lemma keep_one O h0 h As has apps h1 A ha a : apps_at h As has apps -> mild h0 h O ->
  app_at h1 A ha a -> owns h1 (A ++ As ++ O) -> mild h h1 (As ++ O) ->
  has_apps O h0 h1 (has ++ [ha]) (apps ++ [a]).
Proof.
  intros HA M0 HN H1 M1. exists (As ++ A). split; [|split].
  - apply apps_at_snoc; [|exact HN]. eapply apps_at_mild; [exact HA|exact M1|incls].
  - own (A ++ As ++ O).
  - eapply mild_trans; [exact M0|]. eapply mild_incl; [exact M1|incls].
Qed.
Lemma drop_one O h0 h As has apps h1 A ha a : apps_at h As has apps -> mild h0 h O ->
  app_at h1 A ha a -> owns h1 (A ++ As ++ O) -> mild h h1 (As ++ O) ->
  exists h2, free_f h1 (ha_list ha) = Ret h2 /\ has_apps O h0 h2 has apps.
Proof.
  intros HA M0 (R & _) H1 M1. destruct (t_free h1 (ha_list ha) A _ (As ++ O) R H1) as (h2 & E & H2 & M2).
  exists h2. split; [exact E|]. assert (M02 : mild h h2 (As ++ O)) by (eapply mild_trans; eassumption).
  exists As. split; [eapply apps_at_mild; [exact HA|exact M02|incls]|]. split; [exact H2|].
  eapply mild_trans; [exact M0|]. eapply mild_incl; [exact M02|incls].
Qed.
Lemma none_one O h0 h As has apps h1 : apps_at h As has apps -> mild h0 h O ->
  owns h1 (As ++ O) -> mild h h1 (As ++ O) -> has_apps O h0 h1 has apps.
Proof.
  intros HA M0 H1 M1. exists As. split; [eapply apps_at_mild; [exact HA|exact M1|incls]|]. split; [exact H1|].
  eapply mild_trans; [exact M0|]. eapply mild_incl; [exact M1|incls].
Qed.

(** ** The directory *)
Lemma aef_step P O pse ps supported h0 : forall fuel itr h has apps, rep h0 pse P ps -> has_apps (P ++ O) h0 h has apps ->
  in_step (rel0 (P ++ O) h0) (aef_loop junk fuel itr ps supported apps) (aef_loop_c junk fuel itr pse supported h has).
Proof.
  induction fuel as [|fuel IH]; intros itr h has apps RP HH; [reflexivity|]. cbn [aef_loop aef_loop_c].
  apply step_same. intros [[r t] itr']. destruct (r <=? 0); [now apply step_ret|]. destruct t as [t|]; [|reflexivity].
  destruct (negb (b_tag t =? 0x61)); [now apply IH|]. destruct HH as (As & HA & Hw & M).
  assert (RP1 : rep h pse P ps) by (eapply rep_mild; [exact RP|exact M|incls]).
  assert (Hw1 : owns h (P ++ As ++ O)) by own (As ++ P ++ O).
  eapply step_bind; [exact (pse_create_step P (As ++ O) h pse ps (b_val t) RP1 Hw1)|].
  intros v [ha h1] Hr. destruct v as [a|], ha as [ha|]; cbn [relm] in Hr; try contradiction.
  - destruct Hr as (A & HN & H1 & M1).
    assert (H1' : owns h1 (A ++ As ++ P ++ O)) by own (A ++ P ++ As ++ O).
    assert (M1' : mild h h1 (As ++ P ++ O)) by (eapply mild_incl; [exact M1|incls]).
    destruct (apps_load _ _ _ _ HN) as (n & En & Ef). rewrite En. cbn [bind]. rewrite Ef.
    apply step_same. intros [|].
    + apply IH; [exact RP|]. exact (keep_one _ _ _ _ _ _ _ _ _ _ HA M HN H1' M1').
    + destruct (drop_one _ _ _ _ _ _ _ _ _ _ HA M HN H1' M1') as (h2 & E2 & HH2). rewrite E2. cbn [bind]. apply IH; [exact RP|exact HH2].
  - destruct Hr as (H1 & M1). apply IH; [exact RP|].
    refine (none_one _ _ _ _ _ _ _ HA M _ _); [own (P ++ As ++ O)|eapply mild_incl; [exact M1|incls]].
Qed.
Lemma parse_aef_step P O pse ps rec supported h0 h has apps : rep h0 pse P ps -> has_apps (P ++ O) h0 h has apps ->
  in_step (rel1 (P ++ O) h0) (parse_aef_record junk ps rec supported apps) (parse_aef_record_c junk pse rec supported h has).
Proof.
  intros RP HH. unfold parse_aef_record, parse_aef_record_c. apply step_same. intros [r t].
  destruct (r <=? 0); [now apply step_ret|]. destruct t as [t|]; [|reflexivity].
  destruct (negb (b_tag t =? 0x70)); [now apply step_ret|].
  eapply step_bind; [exact (aef_step P O pse ps supported h0 _ _ h has apps RP HH)|].
  intros apps1 [h1 has1] HH1. now apply step_ret.
Qed.
Lemma pse_loop_step P O pse ps sfi supported h0 : forall fuel s rec h has apps, rep h0 pse P ps -> has_apps (P ++ O) h0 h has apps ->
  in_step (rel3 (P ++ O) h0) (pse_loop x junk fuel s sfi rec ps supported apps) (pse_loop_c x junk fuel s sfi rec pse supported h has).
Proof.
  induction fuel as [|fuel IH]; intros s rec h has apps RP HH; [reflexivity|]. cbn [pse_loop pse_loop_c].
  apply step_same. intros a. destruct (negb (n_ret a =? 0)); [apply step_ret; split; auto|].
  destruct (n_sw a =? 0x6A83); [apply step_ret; split; auto|]. destruct (negb (n_sw a =? 0x9000)); [now apply IH|].
  eapply step_bind; [exact (parse_aef_step P O pse ps _ supported h0 h has apps RP HH)|].
  intros [r apps1] [[r' h1] has1] (-> & HH1). destruct (r <? 0); [apply step_ret; split; auto|]. now apply IH.
Qed.
Lemma read_pse_step O fuel s supported h0 h has apps : has_apps O h0 h has apps ->
  in_step (rel3 O h0) (read_pse x junk fuel s supported apps) (read_pse_c x junk fuel s supported h has).
Proof.
  intros HH. unfold read_pse, read_pse_c. apply step_same. intros a. cbv zeta.
  destruct (negb (n_ret a =? 0)); [apply step_ret; split; auto|]. destruct (n_sw a =? 0x6A81); [apply step_ret; split; auto|].
  destruct (n_sw a =? 0x6A82); [apply step_ret; split; auto|]. destruct (n_sw a =? 0x6283); [apply step_ret; split; auto|].
  destruct (negb (n_sw a =? 0x9000)); [apply step_ret; split; auto|]. destruct HH as (As & HA & Hw & M).
  unfold tlv_parse, tlv_parse_h.
  eapply step_bind; [exact (parse_step (As ++ O) _ _ h tlist_init [] [] (rep_init h) Hw)|].
  intros [r ps] [[r' h1] pse] (-> & P & RP & H1 & M1).
  assert (HH1 : has_apps (P ++ O) h1 h1 has apps).
  { exists As. split; [eapply apps_at_mild; [exact HA|exact M1|incls]|]. split; [own (P ++ As ++ O)|apply mild_refl]. }
  assert (M1' : mild h h1 O) by (eapply mild_incl; [exact M1|incls]).
  eapply (step_bind (rel3 (P ++ O) h1)).
  - destruct (r <? 0); [apply step_ret; split; auto|].
    destruct (t_find h1 pse P ps (As ++ O) 0x88 RP H1) as (p & Ep & Hf). rewrite Ep. cbn [bind].
    destruct (find_tag 0x88 ps) as [f|]; [|subst p; cbn [deref bind]; apply step_ret; split; auto].
    destruct Hf as (q & -> & Hq). destruct (at_load _ _ _ _ _ _ RP Hq) as (n & En & Ef).
    unfold deref. rewrite En. cbn [bind]. rewrite Ef. destruct (negb (f_len f =? 1)); [apply step_ret; split; auto|].
    apply step_same. intros sfi. exact (pse_loop_step P O pse ps sfi supported h1 fuel (n_st a) 1 h1 has apps RP HH1).
  - intros [[r1 apps1] s1] [[[r2 h2] has1] s2] (-> & -> & As2 & HA2 & H2 & M2).
    assert (RP2 : rep h2 pse P ps) by (eapply rep_mild; [exact RP|exact M2|incls]).
    destruct (t_free h2 pse P ps (As2 ++ O) RP2 ltac:(own (As2 ++ P ++ O))) as (h3 & E3 & H3 & M3). rewrite E3. cbn [bind].
    assert (M03 : mild h0 h3 O).
    { eapply mild_trans; [exact M|]. eapply mild_trans; [exact M1'|]. eapply mild_trans; [eapply mild_incl; [exact M2|incls]|].
      eapply mild_incl; [exact M3|incls]. }
    assert (HA3 : apps_at h3 As2 has1 apps1) by (eapply apps_at_mild; [exact HA2|exact M3|incls]).
    destruct (r1 =? 0).
    + apply step_ret. split; [reflexivity|]. split; [reflexivity|]. exists As2. auto.
    + destruct (t_free_all h3 As2 has1 apps1 HA3 h3 O (mild_refl _ _) H3) as (h4 & E4 & H4 & M4). rewrite E4. cbn [bind].
      apply step_ret. split; [reflexivity|]. split; [reflexivity|]. exists []. split; [constructor|]. split; [exact H4|].
      eapply mild_trans; eassumption.
Qed.

(** ** The list of AIDs *)
Lemma find_step O h0 : forall fuel s aids exact_ h has apps, has_apps O h0 h has apps ->
  in_step (rel3 O h0) (TalModel.find_loop x junk fuel s aids exact_ apps) (find_loop_c x junk fuel s aids exact_ h has).
Proof.
  induction fuel as [|fuel IH]; intros s aids exact_ h has apps HH; [reflexivity|]. cbn [TalModel.find_loop find_loop_c].
  destruct aids as [|aid rest]; [apply step_ret; split; auto|]. apply step_same. intros name. apply step_same. intros a. cbv zeta.
  destruct (negb (n_ret a =? 0)); [apply step_ret; split; auto|].
  destruct (exact_ && (n_sw a =? 0x6A81))%bool; [apply step_ret; split; auto|].
  destruct (negb (n_sw a =? 0x9000) && negb (n_sw a =? 0x6283))%bool; [now apply IH|].
  destruct HH as (As & HA & Hw & M).
  eapply step_bind; [exact (fci_create_step (As ++ O) h (n_data a) Hw)|].
  intros v [ha h1] Hr. destruct v as [b|], ha as [ha|]; cbn [relm] in Hr; try contradiction.
  - destruct Hr as (A & HN & H1 & M1). destruct (apps_load _ _ _ _ HN) as (n & En & Ef). rewrite En. cbn [bind]. rewrite Ef.
    pose proof (keep_one _ _ _ _ _ _ _ _ _ _ HA M HN H1 M1) as K.
    destruct (drop_one _ _ _ _ _ _ _ _ _ _ HA M HN H1 M1) as (h2 & E2 & HH2).
    destruct (f_len aid =? f_len (a_aid b)).
    { destruct (n_sw a =? 0x9000); [now apply IH|]. rewrite E2. cbn [bind]. now apply IH. }
    destruct (f_flags aid =? 1).
    { destruct (n_sw a =? 0x9000); [now apply IH|]. rewrite E2. cbn [bind]. now apply IH. }
    rewrite E2. cbn [bind]. now apply IH.
  - destruct Hr as (H1 & M1). apply IH. exact (none_one _ _ _ _ _ _ _ HA M H1 M1).
Qed.
Lemma build_step O fuel s c h0 h has apps : has_apps O h0 h has apps ->
  in_step (rel3 O h0) (build_candidate_list x junk fuel s c apps) (build_candidate_list_c x junk fuel s (k_aids c) h has).
Proof.
  intros HH. unfold build_candidate_list, build_candidate_list_c, find_supported_apps.
  eapply step_bind; [exact (read_pse_step O fuel s (k_aids c) h0 h has apps HH)|].
  intros [[r apps1] s1] [[[r' h1] has1] s2] (-> & -> & HH1).
  destruct (r <? 0); [apply step_ret; split; auto|].
  eapply (step_bind (rel3 O h0)).
  - destruct HH1 as (As & HA & B). destruct HA as [|A ha a As has1 apps1 HA HR].
    + apply find_step. exists []. split; [constructor|exact B].
    + apply step_ret. split; [reflexivity|]. split; [reflexivity|]. exists (A ++ As). split; [now constructor|exact B].
  - intros [[r1 apps2] s3] [[[r2 h2] has2] s4] (-> & -> & HH2).
    destruct (negb (r1 =? 0)); [apply step_ret; split; auto|].
    destruct HH2 as (As & HA & Hw & M). pose proof HA as HA'. destruct HA' as [|A ha a As has2 apps2 HN HR].
    + apply step_ret. split; [reflexivity|]. split; [reflexivity|]. exists []. auto.
    + apply step_ret. split; [reflexivity|]. split; [reflexivity|].
      destruct (sort_at _ _ _ _ HA) as (Bs & HB & EB). exists Bs. split; [exact HB|]. split; [|exact M].
      apply (occs_eq _ ((A ++ As) ++ O)); [|exact Hw]. intros z. specialize (EB z). rewrite !occ_app in *. lia.
Qed.

(** ** Selecting one *)
Definition rela (O : list nat) (h0 : heap) (v : Z * option emvapp * T) (w : Z * option happ * heap * T) : Prop :=
  let '(r, a, s) := v in let '(r', ha, h, s') := w in r' = r /\ s' = s /\
  match a, ha with
  | None, None => owns h O /\ mild h0 h O
  | Some a, Some ha => r = 0 /\ exists A, app_at h A ha a /\ owns h (A ++ O) /\ mild h0 h O
  | _, _ => False
  end.
Lemma select_app_step O s aid h0 h : owns h O -> mild h0 h O ->
  in_step (rela O h0) (select_app x junk s aid) (select_app_c x junk s aid h).
Proof.
  intros Hw M. unfold select_app, select_app_c.
  assert (Keep : forall r s', in_step (rela O h0) (Ret (r, None, s')) (Ret (r, None, h, s'))) by (intros; apply step_ret; split; auto).
  destruct ((Zlen aid <? 5) || (16 <? Zlen aid))%bool; [apply Keep|]. apply step_same. intros a. cbv zeta.
  destruct (negb (n_ret a =? 0)); [apply Keep|]. destruct (negb (n_sw a =? 0x9000)).
  { destruct (n_sw a =? 0x6A81); [apply Keep|]. destruct (n_sw a =? 0x6A82); [apply Keep|]. destruct (n_sw a =? 0x6283); apply Keep. }
  eapply step_bind; [exact (fci_create_step O h (n_data a) Hw)|].
  intros v [ha h1] Hr. destruct v as [b|], ha as [ha|]; cbn [relm] in Hr; try contradiction.
  - destruct Hr as (A & HN & H1 & M1). destruct (apps_load _ _ _ _ HN) as (n & En & Ef). rewrite En. cbn [bind]. rewrite Ef.
    assert (Dr : in_step (rela O h0) (Ret (TAL_APP_SELECTION_FAILED, None, n_st a))
       (let* h := free_f h1 (ha_list ha) in Ret (TAL_APP_SELECTION_FAILED, None, h, n_st a))).
    { destruct HN as (R & _). destruct (t_free h1 (ha_list ha) A _ O R H1) as (h2 & E2 & H2 & M2). rewrite E2. cbn [bind].
      apply step_ret. split; [reflexivity|]. split; [reflexivity|]. split; [exact H2|].
      eapply mild_trans; [exact M|]. eapply mild_trans; eassumption. }
    destruct (negb (f_len (a_aid b) =? Zlen aid)); [exact Dr|]. apply step_same. intros [|]; cbn [negb]; [|exact Dr].
    apply step_ret. split; [reflexivity|]. split; [reflexivity|]. split; [reflexivity|]. exists A. split; [exact HN|]. split; [exact H1|].
    eapply mild_trans; eassumption.
  - destruct Hr as (H1 & M1). apply step_ret. split; [reflexivity|]. split; [reflexivity|]. split; [exact H1|].
    eapply mild_trans; eassumption.
Qed.

(** The lists of a context; their addresses are [K]. *)
Definition ctx_part (h : heap) (hc : hctx) (c : ctx) (K : list nat) : Prop :=
  exists Ac Ap Aa Ai At, K = Ac ++ Ap ++ Aa ++ Ai ++ At /\
    rep h (c_config hc) Ac (k_config c) /\ rep h (c_params hc) Ap (k_params c) /\
    app_rep h Ai (k_icc c) Aa (c_app hc) (k_app c) /\
    rep h (c_icc hc) Ai (k_icc c) /\ rep h (c_term hc) At (k_term c).
Lemma ctx_split h hc c Y : ctx_rep h hc c Y <-> exists K, ctx_part h hc c K /\ owns h (K ++ Y).
Proof.
  split.
  - intros (Ac & Ap & Aa & Ai & At & Rc & Rp & Ra & Ri & Rt & H). exists (Ac ++ Ap ++ Aa ++ Ai ++ At).
    split; [exists Ac, Ap, Aa, Ai, At; auto 10|]. own (Ac ++ Ap ++ Aa ++ Ai ++ At ++ Y).
  - intros (K & (Ac & Ap & Aa & Ai & At & -> & Rc & Rp & Ra & Ri & Rt) & H). exists Ac, Ap, Aa, Ai, At.
    repeat (split; [assumption|]). own ((Ac ++ Ap ++ Aa ++ Ai ++ At) ++ Y).
Qed.
Lemma part_mild h h' Y hc c K : ctx_part h hc c K -> mild h h' Y -> incl K Y -> ctx_part h' hc c K.
Proof.
  intros (Ac & Ap & Aa & Ai & At & -> & Rc & Rp & Ra & Ri & Rt) M I. exists Ac, Ap, Aa, Ai, At. split; [reflexivity|].
  assert (forall z, In z Ac \/ In z Ap \/ In z Aa \/ In z Ai \/ In z At -> In z Y) as I'.
  { intros z Hz. apply I. rewrite !in_app_iff. exact Hz. }
  split; [eapply rep_mild; [exact Rc|exact M|intros z Hz; apply I'; auto]|].
  split; [eapply rep_mild; [exact Rp|exact M|intros z Hz; apply I'; auto]|].
  split; [eapply app_mild; [exact Ra|exact M|intros z Hz; apply I'; auto]|].
  split; [eapply rep_mild; [exact Ri|exact M|intros z Hz; apply I'; auto]|].
  eapply rep_mild; [exact Rt|exact M|intros z Hz; apply I'; auto 6].
Qed.
Definition hwith (hc : hctx) (a : option (tlist * nat)) := mkHC (c_config hc) (c_params hc) a (c_icc hc) (c_term hc).
Definition cwith (c : ctx) (a : option (emvapp * aid_at)) := mkCtx (k_ttl c) (k_config c) (k_aids c) (k_params c) a (k_icc c) (k_term c).
(** Without its application... *)
Lemma unselect h hc c K Y : ctx_part h hc c K -> owns h (K ++ Y) ->
  exists h' K', match c_app hc with Some (tl, _) => free_f h tl | None => Ret h end = Ret h' /\
    ctx_part h' (hwith hc None) (cwith c None) K' /\ owns h' (K' ++ Y) /\ mild h h' (K' ++ Y).
Proof.
  intros (Ac & Ap & Aa & Ai & At & -> & Rc & Rp & Ra & Ri & Rt) H.
  assert (G : exists h', match c_app hc with Some (tl, _) => free_f h tl | None => Ret h end = Ret h' /\
    owns h' ((Ac ++ Ap ++ Ai ++ At) ++ Y) /\ mild h h' ((Ac ++ Ap ++ Ai ++ At) ++ Y)).
  { unfold app_rep in Ra. destruct (c_app hc) as [[tl p]|], (k_app c) as [[a w]|]; try contradiction.
    - destruct Ra as (Ra & _). apply (t_free h tl Aa (a_tlvs a)); [exact Ra|]. own ((Ac ++ Ap ++ Aa ++ Ai ++ At) ++ Y).
    - subst Aa. exists h. split; [reflexivity|]. split; [exact H|apply mild_refl]. }
  destruct G as (h' & E & H' & M). exists h', (Ac ++ Ap ++ Ai ++ At). split; [exact E|]. split; [|split; assumption].
  exists Ac, Ap, [], Ai, At. split; [reflexivity|]. cbn [hwith cwith c_config c_params c_app c_icc c_term k_config k_params k_app k_icc k_term].
  split; [eapply rep_mild; [exact Rc|exact M|incls]|]. split; [eapply rep_mild; [exact Rp|exact M|incls]|]. split; [reflexivity|].
  split; [eapply rep_mild; [exact Ri|exact M|incls]|]. eapply rep_mild; [exact Rt|exact M|incls].
Qed.
(** ... and with a new one. *)
Lemma reselect h hc c K A ha a : ctx_part h (hwith hc None) (cwith c None) K -> app_at h A ha a ->
  exists K', ctx_part h (hwith hc (Some (ha_list ha, ha_aid ha))) (cwith c (Some (a, InApp))) K' /\ forall z, occ K' z = occ (A ++ K) z.
Proof.
  intros (Ac & Ap & Aa & Ai & At & -> & Rc & Rp & Ra & Ri & Rt) (R & W & _). cbn [hwith cwith c_app k_app app_rep] in Ra. subst Aa.
  cbn [hwith cwith c_config c_params c_app c_icc c_term k_config k_params k_app k_icc k_term] in *.
  exists (Ac ++ Ap ++ A ++ Ai ++ At). split.
  - exists Ac, Ap, A, Ai, At. split; [reflexivity|]. cbn [hwith cwith c_config c_params c_app c_icc c_term k_config k_params k_app k_icc k_term].
    split; [exact Rc|]. split; [exact Rp|]. split; [split; [exact R|exact W]|]. split; assumption.
  - occs.
Qed.

(** ** Histories *)
Definition reld (O : list nat) (h0 : heap) (v : Z * ctx * list emvapp * T) (w : Z * hctx * heap * list happ * T) : Prop :=
  let '(r, c, apps, s) := v in let '(r', hc, h, has, s') := w in
  r' = r /\ s' = s /\ all_rep h hc has c apps O /\ mild h0 h O.
Lemma all_intro h hc c K As has apps O : ctx_part h hc c K -> apps_at h As has apps -> owns h (K ++ As ++ O) -> all_rep h hc has c apps O.
Proof. intros C A H. exists As. split; [exact A|]. apply ctx_split. eauto. Qed.
Lemma try_again_eq h As has apps : apps_at h As has apps -> try_again_c has = try_again apps.
Proof. now intros []. Qed.

Lemma select_step O s c hc h has apps i : all_rep h hc has c apps O ->
  in_step (fun v w => let '(r, apps, c, s) := v in reld O h (r, c, apps, s) w)
    (select_application x junk s c apps i) (select_application_c x junk s hc h has i).
Proof.
  intros (As & HA & HC). apply ctx_split in HC as (K & HK & Hw). unfold select_application, select_application_c. cbv zeta.
  destruct (unselect h hc c K (As ++ O) HK Hw) as (h1 & K1 & E1 & HK1 & H1 & M1). rewrite E1. cbn [bind].
  change (mkHC (c_config hc) (c_params hc)) with (fun a b d => mkHC (c_config hc) (c_params hc) a b d). cbv beta.
  assert (HA1 : apps_at h1 As has apps) by (eapply apps_at_mild; [exact HA|exact M1|incls]).
  assert (M1O : mild h h1 O) by (eapply mild_incl; [exact M1|incls]).
  unfold remove_nth. destruct (remove_at h1 As has apps i HA1) as [(-> & ->)|(ha & a & A & Bs & -> & -> & HN & HB & EB)].
  { apply step_ret. split; [reflexivity|]. split; [reflexivity|]. split; [|exact M1O]. exact (all_intro _ _ _ _ _ _ _ _ HK1 HA1 H1). }
  destruct (apps_load _ _ _ _ HN) as (n & En & Ef). rewrite En. cbn [bind]. rewrite Ef.
  assert (Hf : owns h1 (A ++ K1 ++ Bs ++ O)).
  { apply (occs_eq _ (K1 ++ As ++ O)); [|exact H1]. intros z. specialize (EB z). rewrite !occ_app in *. lia. }
  destruct HN as (RN & _). destruct (t_free h1 (ha_list ha) A _ (K1 ++ Bs ++ O) RN Hf) as (h2 & E2 & H2 & M2).
  assert (HK2 : ctx_part h2 (hwith hc None) (cwith c None) K1) by (eapply part_mild; [exact HK1|exact M2|incls]).
  set (has' := firstn i has ++ skipn (S i) has) in *. set (apps' := firstn i apps ++ skipn (S i) apps) in *.
  assert (HB2 : apps_at h2 Bs has' apps') by (eapply apps_at_mild; [exact HB|exact M2|incls]).
  assert (M2O : mild h h2 O) by (eapply mild_trans; [exact M1O|]; eapply mild_incl; [exact M2|incls]).
  rewrite (try_again_eq _ _ _ _ HB).
  destruct (16 <? f_len (a_aid a)).
  { rewrite E2. cbn [bind]. apply step_ret. split; [reflexivity|]. split; [reflexivity|]. split; [|exact M2O].
    exact (all_intro _ _ _ _ _ _ _ _ HK2 HB2 H2). }
  apply step_same. intros aid. rewrite E2. cbn [bind].
  eapply step_bind; [exact (select_app_step (K1 ++ Bs ++ O) s aid h2 h2 H2 (mild_refl _ _))|].
  intros [[r sel] s1] [[[r' hsel] h3] s2] (-> & -> & Hs). destruct sel as [b|], hsel as [hb|]; try contradiction.
  - destruct Hs as (-> & B & HNb & H3 & M3). cbn [Z.eqb]. apply step_ret. split; [reflexivity|]. split; [reflexivity|].
    assert (HK3 : ctx_part h3 (hwith hc None) (cwith c None) K1) by (eapply part_mild; [exact HK2|exact M3|incls]).
    destruct (reselect h3 hc c K1 B hb b HK3 HNb) as (K4 & HK4 & EK).
    split; [|eapply mild_trans; [exact M2O|]; eapply mild_incl; [exact M3|incls]].
    refine (all_intro _ _ _ _ Bs _ _ _ HK4 _ _); [eapply apps_at_mild; [exact HB2|exact M3|incls]|].
    apply (occs_eq _ (B ++ K1 ++ Bs ++ O)); [|exact H3]. intros z. specialize (EK z). rewrite !occ_app in *. lia.
  - destruct Hs as (H3 & M3).
    assert (HK3 : ctx_part h3 (hwith hc None) (cwith c None) K1) by (eapply part_mild; [exact HK2|exact M3|incls]).
    assert (HB3 : apps_at h3 Bs has' apps') by (eapply apps_at_mild; [exact HB2|exact M3|incls]).
    assert (M3O : mild h h3 O) by (eapply mild_trans; [exact M2O|]; eapply mild_incl; [exact M3|incls]).
    pose proof (all_intro _ _ _ _ _ _ _ _ HK3 HB3 H3) as AR.
    destruct (r =? 0); [|destruct (r <? 0)]; (apply step_ret; split; [reflexivity|]; split; [reflexivity|]; split; [exact AR|exact M3O]).
Qed.

Lemma deed_step O buf fuel o s c hc h has apps : all_rep h hc has c apps O ->
  in_step (reld O h) (do_ x junk buf fuel o s c apps) (do_c x junk buf fuel (k_aids c) o s hc h has).
Proof.
  intros AR. destruct o as [|i|j|]; cbn [do_ do_c].
  - destruct AR as (As & HA & HC). apply ctx_split in HC as (K & HK & Hw).
    assert (HH : has_apps (K ++ O) h h has apps).
    { exists As. split; [exact HA|]. split; [own (K ++ As ++ O)|apply mild_refl]. }
    eapply step_bind; [exact (build_step (K ++ O) fuel s c h h has apps HH)|].
    intros [[r apps1] s1] [[[r' h1] has1] s2] (-> & -> & Bs & HB & H1 & M1). apply step_ret.
    split; [reflexivity|]. split; [reflexivity|]. split; [|eapply mild_incl; [exact M1|incls]].
    refine (all_intro _ _ _ K Bs _ _ _ _ HB _); [eapply part_mild; [exact HK|exact M1|incls]|own (Bs ++ K ++ O)].
  - match goal with |- in_step _ _ ?w => replace w with (let* y := w in Ret y) by (destruct w; reflexivity) end.
    eapply step_bind; [exact (select_step O s c hc h has apps i AR)|].
    intros [[[r apps1] c1] s1] w Hw. now apply step_ret.
  - destruct AR as (As & HA & HC).
    assert (St : in_step (relc (As ++ O) h) (work x buf fuel j s c) (work_h x buf fuel j s hc h)).
    { destruct j as [pos| |]; cbn [work work_h]; [now apply initiate_step|now apply read_step|].
      destruct (reset_step (As ++ O) c hc h HC) as (hc' & h' & E & C' & M'). rewrite E. cbn [bind].
      destruct (ctx_reset c) as [r c'] eqn:Er. cbn [snd] in C'. unfold ctx_reset in Er. injection Er as <- Ec.
      apply step_ret. split; [reflexivity|]. split; [reflexivity|]. split; [exact C'|exact M']. }
    eapply step_bind; [exact St|]. intros [[r c1] s1] [[[r' hc1] h1] s2] (-> & -> & C1 & M1). apply step_ret.
    split; [reflexivity|]. split; [reflexivity|]. split; [|eapply mild_incl; [exact M1|incls]].
    exists As. split; [eapply apps_at_mild; [exact HA|exact M1|incls]|exact C1].
  - destruct AR as (As & HA & HC). apply ctx_split in HC as (K & HK & Hw).
    destruct (t_free_all h As has apps HA h (K ++ O) (mild_refl _ _) ltac:(own (K ++ As ++ O))) as (h1 & E1 & H1 & M1).
    rewrite E1. cbn [bind]. apply step_ret. split; [reflexivity|]. split; [reflexivity|].
    split; [|eapply mild_incl; [exact M1|incls]].
    refine (all_intro _ _ _ K [] _ _ _ _ (apps_none _) H1). eapply part_mild; [exact HK|exact M1|incls].
Qed.
(** The list of supported AIDs is not changed. *)
Definition aids_kept {X} (get : X -> ctx) (c : ctx) (m : out X) : Prop := forall v, m = Ret v -> k_aids (get v) = k_aids c.
Lemma kept_bind {A X} get c (m : out A) (k : A -> out X) : (forall a, aids_kept get c (k a)) -> aids_kept get c (bind m k).
Proof. intros H v. destruct m as [a| |]; cbn [bind]; try discriminate. apply H. Qed.
Lemma ret_eq {A} (a b : A) : Ret a = Ret b -> a = b.
Proof. congruence. Qed.
Ltac kept_go := repeat first
  [ apply kept_bind; intros
  | match goal with
    | |- aids_kept _ _ (Ret _) => intros ? E0; apply ret_eq in E0; subst; reflexivity
    | |- aids_kept _ _ UB => discriminate
    | |- aids_kept _ _ (match ?b with _ => _ end) => destruct b
    | |- aids_kept _ _ (let _ := _ in _) => cbv zeta
    end ].
Lemma work_aids buf fuel j s c : aids_kept (fun v => snd (fst v)) c (work x buf fuel j s c).
Proof.
  destruct j as [pos| |]; cbn [work]; unfold initiate, read_application_data, ctx_reset; cbv zeta; kept_go.
Qed.
Lemma do_aids buf fuel o s c apps : aids_kept (fun v => snd (fst (fst v))) c (do_ x junk buf fuel o s c apps).
Proof.
  destruct o as [|i|j|]; cbn [do_]; try (kept_go; fail).
  - unfold select_application. cbv zeta.
    intros [[[r c'] apps'] s']. cbn [fst snd]. destruct (remove_nth i apps) as [[cur apps1]|].
    + match goal with |- bind ?m _ = _ -> _ => assert (K : aids_kept (fun v => snd (fst v)) c m) by kept_go end.
      match goal with |- bind ?m _ = _ -> _ => destruct m as [[[[r1 apps2] c2] s2]| |] end; cbn [bind]; try discriminate.
      intros E. apply ret_eq in E. specialize (K _ eq_refl). cbn [fst snd] in K. congruence.
    + cbn [bind]. intros E. apply ret_eq in E. apply pair_equal_spec in E as (E & _). apply pair_equal_spec in E as (E & _).
      apply pair_equal_spec in E as (_ & <-). reflexivity.
  - intros [[[r c'] apps'] s']. cbn [fst snd]. pose proof (work_aids buf fuel j s c) as K.
    destruct (work x buf fuel j s c) as [[[r1 c1] s1]| |]; cbn [bind]; try discriminate.
    intros E. apply ret_eq in E. specialize (K _ eq_refl). cbn [fst snd] in K. congruence.
Qed.

Definition relh (O : list nat) (h0 : heap) (v : list Z * ctx * list emvapp * T) (w : list Z * hctx * heap * list happ * T) : Prop :=
  let '(r, c, apps, s) := v in let '(r', hc, h, has, s') := w in
  r' = r /\ s' = s /\ all_rep h hc has c apps O /\ mild h0 h O.
Lemma deeds_step O buf fuel aids : forall os s c hc h has apps, all_rep h hc has c apps O -> k_aids c = aids ->
  in_step (relh O h) (deeds x junk buf fuel os s c apps) (deeds_c x junk buf fuel aids os s hc h has).
Proof.
  induction os as [|o os IH]; intros s c hc h has apps AR Ea; cbn [deeds deeds_c].
  - apply step_ret. split; [reflexivity|]. split; [reflexivity|]. split; [exact AR|apply mild_refl].
  - pose proof (do_aids buf fuel o s c apps) as K. pose proof (deed_step O buf fuel o s c hc h has apps AR) as D. rewrite Ea in D.
    destruct (do_ x junk buf fuel o s c apps) as [[[[r c1] apps1] s1]| |]; cbn [in_step] in D; [|rewrite D; reflexivity|rewrite D; reflexivity].
    destruct D as ([[[[r' hc1] h1] has1] s2] & E & -> & -> & AR1 & M1). rewrite E. cbn [bind].
    specialize (K _ eq_refl). cbn [fst snd] in K.
    eapply step_bind; [exact (IH s1 c1 hc1 h1 has1 apps1 AR1 ltac:(congruence))|].
    intros [[[rs c2] apps2] s3] [[[[rs' hc2] h2] has2] s4] (-> & -> & AR2 & M2). apply step_ret.
    split; [reflexivity|]. split; [reflexivity|]. split; [exact AR2|]. eapply mild_trans; eassumption.
Qed.
End Cand.
