(** Lemmas on who owns the fields. *)
From Verif Require Import Base BaseLemmas BerModel TlvListModel TlvListSpec TlvListProofs TlvModel DolModel TtlModel FieldsModel
  AppModel TalModel EmvModel HoldModel HoldSpec OwnSpec OwnProofs.
Local Notation length := List.length.

Lemma occ_app l1 l2 a : occ (l1 ++ l2) a = (occ l1 a + occ l2 a)%nat.
Proof. apply count_occ_app. Qed.
Lemma occ_in l a : In a l <-> (0 < occ l a)%nat.
Proof. unfold occ. rewrite (count_occ_In Nat.eq_dec). lia. Qed.
Lemma allocated_live h a : is_live h a <-> allocated h a = 1%nat.
Proof. unfold is_live, allocated. destruct (load h a) as [n| |]; split; intros H; try discriminate; eauto; destruct H; discriminate. Qed.
Lemma allocated_le h a : (allocated h a <= 1)%nat.
Proof. unfold allocated. destruct (load h a); lia. Qed.
Lemma allocated_load h h' a : load h' a = load h a -> allocated h' a = allocated h a.
Proof. unfold allocated. now intros ->. Qed.
Lemma load_ub h a : ~ is_live h a <-> load h a = UB.
Proof.
  unfold is_live, load. destruct (nth_error h a) as [[n|]|]; split; intros H; try reflexivity; try (intros (m & E); discriminate).
  exfalso. eauto.
Qed.
Lemma allocated_0 h a : allocated h a = 0%nat <-> load h a = UB.
Proof.
  rewrite <- load_ub, allocated_live. pose proof (allocated_le h a). lia.
Qed.
Lemma occs_eq h X Y : (forall a, occ X a = occ Y a) -> owns h X -> owns h Y.
Proof. intros E H a. rewrite <- E. apply H. Qed.
Ltac occs := intros ?; rewrite ?occ_app; cbn [app]; rewrite ?occ_app; try change (occ [] _) with 0%nat; lia.
Lemma owns_nodup h A O : owns h (A ++ O) -> NoDup A.
Proof.
  intros H. apply (NoDup_count_occ Nat.eq_dec). intros a. specialize (H a). rewrite occ_app in H.
  pose proof (allocated_le h a). unfold occ in H. lia.
Qed.
Lemma owns_disjoint h A O a : owns h (A ++ O) -> In a A -> ~ In a O.
Proof. intros H HA HO. specialize (H a). rewrite occ_app in H. apply occ_in in HA, HO. pose proof (allocated_le h a). lia. Qed.
Lemma owns_live h X a : owns h X -> In a X <-> is_live h a.
Proof. intros H. rewrite occ_in, H, allocated_live. pose proof (allocated_le h a). lia. Qed.
Lemma live_len h a : is_live h a -> (a < length h)%nat.
Proof. intros (n & E). exact (load_lt _ _ _ E). Qed.

Lemma mild_refl h O : mild h h O.
Proof. split; auto. Qed.
Lemma mild_trans h1 h2 h3 O : mild h1 h2 O -> mild h2 h3 O -> mild h1 h3 O.
Proof. intros (A & B) (C & D). split; [intros a Ha; rewrite C by exact Ha; auto|auto]. Qed.
Lemma mild_incl h h' O O' : mild h h' O -> incl O' O -> mild h h' O'.
Proof. intros (A & B) I. split; [intros a Ha; apply A, I, Ha|exact B]. Qed.
Lemma rep_mild h h' O l B gs : rep h l B gs -> mild h h' O -> incl B O -> rep h' l B gs.
Proof. intros R (M & _) I. apply (rep_frame h); [exact R|]. intros a Ha. apply M, I, Ha. Qed.
Ltac incls := intros ? ?; rewrite ?in_app_iff in *; tauto.

(** Lengths only grow. *)
Lemma store_len h a n h' : store h a n = Ret h' -> length h' = length h.
Proof. unfold store. destruct (load h a); cbn [bind]; intros E; inversion E; apply upd_length. Qed.
Lemma pop_len h l p h' l' : list_pop h l = Ret (p, h', l') -> length h' = length h.
Proof.
  unfold list_pop. destruct (negb (list_is_valid l)); [intros E; inversion E; reflexivity|].
  destruct (front l); [|intros E; inversion E; reflexivity].
  destruct (load h n) as [m| |]; cbn [bind]; try discriminate.
  destruct (store h n _) as [h1| |] eqn:Es; cbn [bind]; try discriminate. intros E. inversion E; subst. exact (store_len _ _ _ _ Es).
Qed.
Lemma free_len h a r h' : tlv_free h a = Ret (r, h') -> length h' = length h.
Proof.
  unfold tlv_free, release. destruct (load h a) as [m| |]; cbn [bind]; try discriminate.
  destruct (n_next m); cbn [bind]; intros E; inversion E; [reflexivity|apply upd_length].
Qed.
Lemma clear_loop_len : forall fuel h l h' l', list_clear_loop fuel h l = Ret (h', l') -> length h' = length h.
Proof.
  induction fuel as [|fuel IH]; intros h l h' l' E; [discriminate|]. cbn [list_clear_loop] in E.
  destruct (front l); [|destruct (back l); [discriminate|inversion E; reflexivity]].
  destruct (list_pop h l) as [[[p h1] l1]| |] eqn:Ep; cbn [bind] in E; try discriminate.
  destruct p as [a|]; [|discriminate].
  destruct (tlv_free h1 a) as [[r h2]| |] eqn:Ef; cbn [bind] in E; try discriminate.
  destruct (r =? 0); [|discriminate]. rewrite (IH _ _ _ _ E), (free_len _ _ _ _ Ef). exact (pop_len _ _ _ _ _ Ep).
Qed.
Lemma rep_fuel h l A fs O : rep h l A fs -> owns h (A ++ O) -> (length A < fuel_for h)%nat.
Proof.
  intros (S & _) H. pose proof (owns_nodup _ _ _ H) as N. unfold fuel_for.
  assert (length A <= length (seq 0 (length h)))%nat.
  { apply NoDup_incl_length; [exact N|]. intros a Ha. apply in_seq.
    pose proof (live_len h a (seg_live _ _ _ _ _ S Ha)). lia. }
  rewrite seq_length in *. lia.
Qed.

(** ** The list operations *)
Lemma t_push h l A fs O f : rep h l A fs -> owns h (A ++ O) ->
  exists h' l' A', list_push h l f = Ret (0, h', l') /\ rep h' l' A' (fs ++ [f]) /\ owns h' (A' ++ O) /\ mild h h' O.
Proof.
  intros R H. destruct (push_spec h l A fs f R (owns_nodup _ _ _ H)) as (h' & l' & E & R' & F & L).
  assert (Hn : ~ is_live h (length h)) by (intros Hl; apply live_len in Hl; lia).
  assert (Hl : (length h < length h')%nat) by (apply live_len, L; auto).
  exists h', l', (A ++ [length h]). split; [exact E|]. split; [exact R'|]. split.
  - intros a. specialize (H a). rewrite !occ_app in *. unfold occ at 2. cbn [count_occ].
    destruct (Nat.eq_dec (length h) a) as [<-|Hne].
    + assert (allocated h' (length h) = 1%nat) by (apply allocated_live, L; auto).
      assert (allocated h (length h) = 0%nat) by (apply allocated_0, load_ub, Hn). lia.
    + assert (allocated h' a = allocated h a); [|lia].
      pose proof (allocated_le h a). pose proof (allocated_le h' a).
      specialize (L a). rewrite !allocated_live in L.
      destruct (Nat.eq_dec (allocated h a) 1); destruct (Nat.eq_dec (allocated h' a) 1); try lia; exfalso; intuition lia.
  - split.
    + intros a Ha. apply F; [intros HA; exact (owns_disjoint _ _ _ _ H HA Ha)|].
      apply live_len. apply (owns_live h (A ++ O) a H). apply in_or_app; auto.
    + intros a (Hlt & Hd). split; [lia|]. apply load_ub. intros Hv. apply L in Hv. apply load_ub in Hd.
      destruct Hv as [Hv| ->]; [contradiction|lia].
Qed.
Lemma t_clear h l A fs O : rep h l A fs -> owns h (A ++ O) ->
  exists h', list_clear (fuel_for h) h l = Ret (h', tlist_init) /\ owns h' O /\ mild h h' O /\ (forall a, In a A -> dead h' a).
Proof.
  intros R H. unfold list_clear. rewrite (rep_valid _ _ _ _ R). cbn [negb].
  destruct (clear_loop_spec A (fuel_for h) h l fs R (owns_nodup _ _ _ H) (rep_fuel _ _ _ _ _ R H)) as (h' & E & F & D).
  pose proof (clear_loop_len _ _ _ _ _ E) as Len.
  exists h'. split; [exact E|]. split; [|split].
  - intros a. specialize (H a) as Ha. rewrite occ_app in Ha. destruct (in_dec Nat.eq_dec a A) as [HA|HA].
    + assert (allocated h' a = 0%nat) by (apply allocated_0, load_ub, D, HA). apply occ_in in HA.
      pose proof (allocated_le h a). lia.
    + rewrite (allocated_load h h' a (F a HA)). rewrite occ_in in HA. lia.
  - split; [intros a Ha; apply F; intros HA; exact (owns_disjoint _ _ _ _ H HA Ha)|].
    intros a (Hlt & Hd). split; [lia|]. rewrite F; [exact Hd|]. intros HA.
    apply load_ub in Hd. apply Hd. destruct R as (S & _). exact (seg_live _ _ _ _ _ S HA).
  - intros a HA. destruct R as (S & _). split; [rewrite Len; apply live_len; exact (seg_live _ _ _ _ _ S HA)|].
    apply load_ub, D, HA.
Qed.
Lemma append_len h l o r h' l' o' : list_append h l o = Ret (r, h', l', o') -> length h' = length h.
Proof.
  unfold list_append. destruct (negb (list_is_valid l)); [intros E; inversion E; reflexivity|].
  destruct (negb (list_is_valid o)); [intros E; inversion E; reflexivity|].
  destruct (back l) as [b|]; cbn [bind]; [|intros E; inversion E; reflexivity].
  destruct (load h b) as [m| |]; cbn [bind]; try discriminate.
  destruct (store h b _) as [h1| |] eqn:Es; cbn [bind]; try discriminate. intros E. inversion E; subst. exact (store_len _ _ _ _ Es).
Qed.
Lemma t_append h l A fs o B gs O : rep h l A fs -> rep h o B gs -> owns h (A ++ B ++ O) ->
  exists h' l', list_append h l o = Ret (0, h', l', tlist_init) /\ rep h' l' (A ++ B) (fs ++ gs) /\
    owns h' ((A ++ B) ++ O) /\ mild h h' O.
Proof.
  intros R R2 H. assert (H' : owns h ((A ++ B) ++ O)) by (rewrite <- app_assoc; exact H).
  destruct (append_spec h l o A fs B gs R R2 (owns_nodup _ _ _ H')) as (h' & l' & E & R' & F & L).
  pose proof (append_len _ _ _ _ _ _ _ E) as Len.
  exists h', l'. split; [exact E|]. split; [exact R'|]. split.
  - intros a. rewrite H'. specialize (L a). rewrite !allocated_live in L.
    pose proof (allocated_le h a). pose proof (allocated_le h' a).
    destruct (Nat.eq_dec (allocated h a) 1); destruct (Nat.eq_dec (allocated h' a) 1); try lia; exfalso; intuition lia.
  - split.
    + intros a Ha. apply F. intros HA. apply (owns_disjoint _ _ _ a H' ltac:(apply in_or_app; auto) Ha).
    + intros a (Hlt & Hd). split; [lia|]. apply load_ub. intros Hv. apply L in Hv. apply load_ub in Hd. contradiction.
Qed.
Lemma t_find h l A fs O tag : rep h l A fs -> owns h (A ++ O) ->
  exists p, list_find (fuel_for h) h l tag = Ret p /\
    match find_tag tag fs with
    | None => p = None
    | Some f => exists a, p = Some a /\ at_addr A fs a f
    end.
Proof.
  intros R H. unfold list_find. rewrite (rep_valid _ _ _ _ R). cbn [negb]. pose proof (rep_fuel _ _ _ _ _ R H) as L.
  destruct R as (S & _). clear H. revert L. generalize (fuel_for h). unfold at_addr.
  induction S as [|a n l0 fs En S IH]; intros fuel L; (destruct fuel as [|fuel]; [lia|]); cbn [TlvListModel.find_loop].
  - exists None. split; reflexivity.
  - rewrite En. cbn [bind]. unfold find_tag. cbn [find]. destruct (f_tag (n_field n) =? tag).
    + exists (Some a). split; [reflexivity|]. exists a. split; [reflexivity|]. left. reflexivity.
    + destruct (IH fuel ltac:(cbn [length] in L; lia)) as (p & E & Hp). exists p. split; [exact E|].
      unfold find_tag in Hp. destruct (find (fun f => f_tag f =? tag) fs) as [f|]; [|exact Hp].
      destruct Hp as (b & -> & Hb). exists b. split; [reflexivity|]. right. exact Hb.
Qed.
Lemma at_load h l A fs p f : rep h l A fs -> at_addr A fs p f -> exists n, load h p = Ret n /\ n_field n = f.
Proof.
  intros (S & _). unfold at_addr. induction S as [|a n l0 fs En S IH]; [intros []|]. cbn [combine].
  intros [E|Hin]; [inversion E; subst; eauto|auto].
Qed.
Lemma at_in A fs p f : at_addr A fs p f -> In p A.
Proof. apply in_combine_l. Qed.
Lemma at_app_l A fs B gs p f : at_addr A fs p f -> length A = length fs -> at_addr (A ++ B) (fs ++ gs) p f.
Proof.
  unfold at_addr. revert fs. induction A as [|a A IH]; intros [|g fs] H L; cbn [combine app] in *; try (destruct H; fail); try discriminate.
  destruct H as [E|H]; [left; exact E|right; auto].
Qed.
Lemma at_app_r A fs B gs p f : at_addr B gs p f -> length A = length fs -> at_addr (A ++ B) (fs ++ gs) p f.
Proof.
  unfold at_addr. revert fs. induction A as [|a A IH]; intros [|g fs] H L; cbn [combine app] in *; try discriminate; [exact H|].
  right. auto.
Qed.
Lemma rep_len h l A fs : rep h l A fs -> length A = length fs.
Proof. intros (S & _). exact (seg_len _ _ _ _ S). Qed.
Lemma t_seen h l A fs O : rep h l A fs -> owns h (A ++ O) -> seen h l = Ret fs.
Proof. intros R H. pose proof (rep_fuel _ _ _ _ _ R H) as L. destruct R as (S & _). exact (walk_spec _ _ _ _ S _ L). Qed.
Lemma t_dup h l A fs O : rep h l A fs -> owns h (A ++ O) -> list_has_duplicate (fuel_for h) h l = Ret (has_duplicate fs).
Proof.
  intros R H. unfold list_has_duplicate. rewrite (rep_valid _ _ _ _ R). cbn [negb]. pose proof (rep_fuel _ _ _ _ _ R H) as L.
  destruct R as (S & _). rewrite (dup_loop_spec _ _ _ _ S _ L). f_equal. clear.
  induction fs as [|f fs IH]; [reflexivity|]. cbn [map has_dup has_duplicate]. rewrite IH. f_equal. clear IH.
  induction fs as [|g fs IH2]; [reflexivity|]. cbn [map existsb]. rewrite Z.eqb_sym. f_equal. exact IH2.
Qed.

(** ** The functions over nodes go in step with those over sequences *)
Section Step.
Context {T : Type} (x : transport T).

Definition relp (O : list nat) (h0 : heap) (v : Z * list field) (w : Z * heap * tlist) : Prop :=
  let (r, fs) := v in let '(r', h, l) := w in
  r' = r /\ exists A, rep h l A fs /\ owns h (A ++ O) /\ mild h0 h O.
Lemma relp_trans O h0 h1 v w : mild h0 h1 O -> relp O h1 v w -> relp O h0 v w.
Proof.
  destruct v as [r fs], w as [[r' h] l]. intros M (-> & A & R & H & M'). split; [reflexivity|].
  exists A. split; [exact R|]. split; [exact H|]. eapply mild_trans; eassumption.
Qed.
Lemma parse_step O : forall fuel itr h l A fs, rep h l A fs -> owns h (A ++ O) ->
  in_step (relp O h) (tlv_parse_f fuel itr fs) (parse_h fuel itr h l).
Proof.
  induction fuel as [|fuel IH]; intros itr h l A fs R H; [reflexivity|]. cbn [tlv_parse_f parse_h].
  apply step_same. intros [[r t] itr'].
  destruct (r <=? 0); [apply step_ret; split; [reflexivity|]; exists A; auto using mild_refl|].
  destruct t as [t|]; [|reflexivity]. destruct (ber_is_constructed t).
  - eapply step_bind; [apply (IH _ _ _ _ _ R H)|]. intros [e fs1] [[e' h1] l1] (-> & A1 & R1 & H1 & M1).
    destruct (e =? 0).
    + eapply step_weaken; [intros v w; apply relp_trans; exact M1|]. exact (IH _ _ _ _ _ R1 H1).
    + apply step_ret. split; [reflexivity|]. eauto.
  - destruct (t_push h l A fs O (mkField (b_tag t) (b_len t) (b_val t) 0) R H) as (h1 & l1 & A1 & E & R1 & H1 & M1).
    rewrite E. cbn [bind]. change (negb (0 =? 0)) with false. cbv iota.
    eapply step_weaken; [intros v w; apply relp_trans; exact M1|]. exact (IH _ _ _ _ _ R1 H1).
Qed.

(** The output pointers. *)
Definition relg (O : list nat) (h0 : heap) (v : Z * list field * gptr * gptr * T)
  (w : Z * heap * tlist * option nat * option nat * T) : Prop :=
  let '(r, fs, aip, afl, s) := v in let '(r', h, l, p, q, s') := w in
  r' = r /\ s' = s /\ exists A, rep h l A fs /\ owns h (A ++ O) /\ mild h0 h O /\
    points h A fs aip p /\ points h A fs afl q.

Definition gpo_fields (t : ber_tlv) : out (list field + Z) :=
  if b_tag t =? 0x80 then
    if ((b_len t <? 6) || negb (Z.land (u32 (b_len t - 2)) 3 =? 0))%bool then Ret (inr TAL_GPO_PARSE_FAILED)
    else
    let* v1 := sub (b_val t) 0 2 in
    let* v2 := sub (b_val t) 2 (Z.to_nat (b_len t - 2)) in
    Ret (inl [mkField 0x82 2 v1 0; mkField 0x94 (b_len t - 2) v2 0])
  else if b_tag t =? 0x77 then
    let* (r, l) := tlv_parse (b_val t) [] in
    if r <? 0 then Ret (inr TAL_INTERNAL) else if 0 <? r then Ret (inr TAL_GPO_PARSE_FAILED) else Ret (inl l)
  else Ret (inl []).
Definition gpo_fields_h (t : ber_tlv) (h : heap) : out (Z * heap * tlist) :=
  if b_tag t =? 0x80 then
    let* v1 := sub (b_val t) 0 2 in
    let* v2 := sub (b_val t) 2 (Z.to_nat (b_len t - 2)) in
    let* (e, h, g) := list_push h tlist_init (mkField 0x82 2 v1 0) in
    if negb (e =? 0) then Ret (TAL_INTERNAL, h, g)
    else
    let* (e, h, g) := list_push h g (mkField 0x94 (b_len t - 2) v2 0) in
    Ret (if negb (e =? 0) then TAL_INTERNAL else 0, h, g)
  else if b_tag t =? 0x77 then
    let* (r, h, g) := tlv_parse_h (b_val t) h tlist_init in
    Ret (if r <? 0 then TAL_INTERNAL else if 0 <? r then TAL_GPO_PARSE_FAILED else 0, h, g)
  else Ret (0, h, tlist_init).
Lemma gpo_fields_step O h t : owns h O ->
  ((b_tag t =? 0x80) && ((b_len t <? 6) || negb (Z.land (u32 (b_len t - 2)) 3 =? 0)))%bool = false ->
  in_step (fun v w => let '(e, h1, g) := w in exists G gs, rep h1 g G gs /\ owns h1 (G ++ O) /\ mild h h1 O /\
      match v with inl l => e = 0 /\ gs = l | inr r => e = r /\ r <> 0 end)
    (gpo_fields t) (gpo_fields_h t h).
Proof.
  intros H Hb. unfold gpo_fields, gpo_fields_h. destruct (b_tag t =? 0x80).
  - cbn [andb] in Hb. rewrite Hb. apply step_same. intros v1. apply step_same. intros v2.
    destruct (t_push h tlist_init [] [] O (mkField 0x82 2 v1 0) (rep_init h) H) as (h1 & l1 & A1 & E & R1 & H1 & M1).
    rewrite E. cbn [bind]. change (negb (0 =? 0)) with false. cbv iota.
    destruct (t_push h1 l1 A1 _ O (mkField 0x94 (b_len t - 2) v2 0) R1 H1) as (h2 & l2 & A2 & E2 & R2 & H2 & M2).
    rewrite E2. cbn [bind]. apply step_ret. exists A2, ([mkField 0x82 2 v1 0] ++ [mkField 0x94 (b_len t - 2) v2 0]).
    split; [exact R2|]. split; [exact H2|]. split; [eapply mild_trans; eassumption|]. split; reflexivity.
  - destruct (b_tag t =? 0x77).
    + unfold tlv_parse, tlv_parse_h.
      eapply step_bind; [apply (parse_step O _ _ h tlist_init [] [] (rep_init h) H)|].
      intros [r fs] [[r' h1] g] (-> & G & R1 & H1 & M1).
      destruct (Z.ltb_spec r 0) as [Hr|Hr]; [|destruct (Z.ltb_spec 0 r) as [Hr2|Hr2]];
        (apply step_ret; exists G, fs; split; [exact R1|]; split; [exact H1|]; split; [exact M1|]); split; try reflexivity; discriminate.
    + apply step_ret. exists [], []. split; [apply rep_init|]. split; [exact H|]. split; [apply mild_refl|]. auto.
Qed.

Lemma gpo_step O s data h l A fs : rep h l A fs -> owns h (A ++ O) ->
  in_step (relg O h) (get_processing_options x s data fs) (get_processing_options_h x s data h l).
Proof.
  intros R H. unfold get_processing_options, get_processing_options_h.
  assert (Keep : forall r s', in_step (relg O h) (Ret (r, fs, GNull, GNull, s')) (Ret (r, h, l, None, None, s'))).
  { intros r s'. apply step_ret. split; [reflexivity|]. split; [reflexivity|]. exists A. repeat (split; [assumption || apply mild_refl|]).
    split; exact I. }
  destruct (match data with Some d => ((Zlen d <? 2) || (255 <? Zlen d))%bool | None => false end); [apply Keep|].
  apply step_same. intros a. cbv zeta. destruct (negb (n_ret a =? 0)); [apply Keep|].
  destruct (negb (n_sw a =? 0x9000)); [apply Keep|]. apply step_same. intros [r t].
  destruct (r <=? 0); [apply Keep|]. destruct t as [t|]; [|reflexivity].
  destruct ((b_tag t =? 0x80) && ((b_len t <? 6) || negb (Z.land (u32 (b_len t - 2)) 3 =? 0)))%bool eqn:Eb.
  { apply andb_true_iff in Eb. destruct Eb as (-> & ->). cbn [bind]. apply Keep. }
  eapply step_bind; [exact (gpo_fields_step (A ++ O) h t H Eb)|].
  intros v [[e h1] g] (G & gs & RG & HG & MG & Hv).
  assert (R1 : rep h1 l A fs) by (eapply rep_mild; [exact R|exact MG|incls]).
  assert (MO : mild h h1 O) by (eapply mild_incl; [exact MG|incls]).
  assert (Drop : forall r aip p, match p with Some q => In q G | None => True end ->
    match aip with GNull => p = None | GFreed => p <> None | GLive _ => False end ->
    in_step (relg O h) (Ret (r, fs, aip, GNull, n_st a)) (gpo_exit r h1 l g p None (n_st a))).
  { intros r1 aip p Hp Ha. unfold gpo_exit. destruct (t_clear h1 g G gs (A ++ O) RG HG) as (h2 & E2 & H2 & M2 & D2).
    rewrite E2. cbn [bind]. apply step_ret. split; [reflexivity|]. split; [reflexivity|]. exists A.
    split; [eapply rep_mild; [exact R1|exact M2|incls]|]. split; [exact H2|].
    split; [eapply mild_trans; [exact MO|eapply mild_incl; [exact M2|incls]]|]. split; [|exact I].
    destruct aip as [|f|]; [subst p; exact I|contradiction|]. destruct p as [q|]; [|congruence]. exact (D2 q Hp). }
  destruct v as [gs'|r1].
  - destruct Hv as (-> & ->). change (negb (0 =? 0)) with false. cbv iota.
    destruct (t_find h1 g G gs' (A ++ O) 0x82 RG HG) as (p & Ep & Hp). rewrite Ep. cbn [bind].
    destruct (find_tag 0x82 gs') as [aip|]; [|subst p; apply Drop; [exact I|reflexivity]].
    destruct Hp as (pa & -> & Hpa).
    destruct (t_find h1 g G gs' (A ++ O) 0x94 RG HG) as (q & Eq & Hq). rewrite Eq. cbn [bind].
    destruct (find_tag 0x94 gs') as [afl|]; [|subst q; apply Drop; [exact (at_in _ _ _ _ Hpa)|discriminate]].
    destruct Hq as (qa & -> & Hqa).
    assert (H1' : owns h1 (A ++ G ++ O)) by (apply (occs_eq h1 (G ++ A ++ O)); [occs|exact HG]).
    destruct (t_append h1 l A fs g G gs' O R1 RG H1') as (h2 & l2 & E2 & R2 & H2 & M2). rewrite E2. cbn [bind].
    unfold gpo_exit. destruct (t_clear h2 tlist_init [] [] ((A ++ G) ++ O) (rep_init h2) H2) as (h3 & E3 & H3 & M3 & _).
    rewrite E3. cbn [bind]. apply step_ret. split; [reflexivity|]. split; [reflexivity|]. exists (A ++ G).
    split; [eapply rep_mild; [exact R2|exact M3|incls]|]. split; [exact H3|].
    split; [eapply mild_trans; [exact MO|]; eapply mild_trans; [exact M2|eapply mild_incl; [exact M3|incls]]|].
    split; apply at_app_r; try assumption; exact (rep_len _ _ _ _ R).
  - destruct Hv as (-> & Hr). apply Z.eqb_neq in Hr. rewrite Hr. cbn [negb]. apply Drop; [exact I|reflexivity].
Qed.

Definition rels (O : list nat) (h0 : heap) (v : Z * list field * T) (w : Z * heap * tlist * T) : Prop :=
  let '(r, fs, s) := v in let '(r', h, l, s') := w in
  r' = r /\ s' = s /\ exists A, rep h l A fs /\ owns h (A ++ O) /\ mild h0 h O.
Lemma rels_trans O h0 h1 v w : mild h0 h1 O -> rels O h1 v w -> rels O h0 v w.
Proof.
  destruct v as [[r fs] s], w as [[[r' h] l] s']. intros M (-> & -> & A & R & H & M'). split; [reflexivity|]. split; [reflexivity|].
  exists A. split; [exact R|]. split; [exact H|]. eapply mild_trans; eassumption.
Qed.
Lemma record_step O sfi rec h l A fs : rep h l A fs -> owns h (A ++ O) ->
  in_step (fun v w => let '(r, b, fs1) := v in let '(r', b', h1, l1) := w in
      r' = r /\ b' = b /\ exists A1, rep h1 l1 A1 fs1 /\ owns h1 (A1 ++ O) /\ mild h h1 O)
    (sfi_record sfi rec fs) (sfi_record_h sfi rec h l).
Proof.
  intros R H. unfold sfi_record, sfi_record_h. apply step_same. intros b0. cbv zeta.
  destruct (negb (b0 =? 0x70)).
  { apply step_ret. destruct ((1 <=? sfi) && (sfi <=? 10))%bool; (split; [reflexivity|]; split; [reflexivity|]; exists A; auto using mild_refl). }
  apply step_same. intros [|].
  { apply step_ret. split; [reflexivity|]. split; [reflexivity|]. exists A. auto using mild_refl. }
  unfold tlv_parse, tlv_parse_h.
  eapply step_bind; [apply (parse_step O _ _ h l A fs R H)|]. intros [r fs1] [[r' h1] l1] (-> & A1 & R1 & H1 & M1).
  apply step_ret. split; [reflexivity|]. split; [reflexivity|]. eauto.
Qed.
Lemma sfi_step O e : forall fuel s rec b h l A fs, rep h l A fs -> owns h (A ++ O) ->
  in_step (rels O h) (sfi_loop x fuel s e rec b fs) (sfi_loop_h x fuel s e rec b h l).
Proof.
  induction fuel as [|fuel IH]; intros s rec b h l A fs R H; [reflexivity|]. cbn [sfi_loop sfi_loop_h].
  assert (Keep : forall r s', in_step (rels O h) (Ret (r, fs, s')) (Ret (r, h, l, s'))).
  { intros. apply step_ret. split; [reflexivity|]. split; [reflexivity|]. exists A. auto using mild_refl. }
  destruct (a_last e <? rec); [apply Keep|]. apply step_same. intros a.
  destruct (negb (n_ret a =? 0)); [apply Keep|]. destruct (negb (n_sw a =? 0x9000)); [apply Keep|].
  eapply step_bind; [apply (record_step O _ _ h l A fs R H)|].
  intros [[r inv] fs1] [[[r' inv'] h1] l1] (-> & -> & A1 & R1 & H1 & M1).
  destruct (negb (r =? 0)); [apply step_ret; split; [reflexivity|]; split; [reflexivity|]; eauto|].
  eapply step_weaken; [intros v w; apply rels_trans; exact M1|]. exact (IH _ _ _ _ _ _ _ R1 H1).
Qed.
Lemma afl_step O rfuel : forall fuel s itr b h l A fs, rep h l A fs -> owns h (A ++ O) ->
  in_step (rels O h) (afl_loop x fuel rfuel s itr b fs) (afl_loop_h x fuel rfuel s itr b h l).
Proof.
  induction fuel as [|fuel IH]; intros s itr b h l A fs R H; [reflexivity|]. cbn [afl_loop afl_loop_h].
  assert (Keep : forall r s', in_step (rels O h) (Ret (r, fs, s')) (Ret (r, h, l, s'))).
  { intros. apply step_ret. split; [reflexivity|]. split; [reflexivity|]. exists A. auto using mild_refl. }
  apply step_same. intros [[r e] itr']. destruct (0 <? r).
  - destruct e as [e|]; [|reflexivity]. unfold read_sfi_records.
    eapply step_bind; [apply (sfi_step O e rfuel s (a_first e) false h l A fs R H)|].
    intros [[r1 fs1] s1] [[[r2 h1] l1] s2] (-> & -> & A1 & R1 & H1 & M1).
    destruct (r1 =? 0); [eapply step_weaken; [intros v w; apply rels_trans; exact M1|]; exact (IH _ _ _ _ _ _ _ R1 H1)|].
    destruct (r1 =? TAL_ODA_RECORD_INVALID); [eapply step_weaken; [intros v w; apply rels_trans; exact M1|]; exact (IH _ _ _ _ _ _ _ R1 H1)|].
    apply step_ret. split; [reflexivity|]. split; [reflexivity|]. eauto.
  - destruct (r <? 0); apply Keep.
Qed.
Lemma afl_records_step O rfuel s afl h l A fs : rep h l A fs -> owns h (A ++ O) ->
  in_step (rels O h) (read_afl_records x rfuel s afl fs) (read_afl_records_h x rfuel s afl h l).
Proof.
  intros R H. unfold read_afl_records, read_afl_records_h.
  assert (Keep : forall r s', in_step (rels O h) (Ret (r, fs, s')) (Ret (r, h, l, s'))).
  { intros. apply step_ret. split; [reflexivity|]. split; [reflexivity|]. exists A. auto using mild_refl. }
  destruct (length afl =? 0)%nat; [apply Keep|]. destruct (afl_itr_init afl) as [r [itr|]]; [|apply Keep].
  exact (afl_step O rfuel _ _ _ _ _ _ _ _ R H).
Qed.
End Step.

Section Ctx.
Context {T : Type} (x : transport T) (O : list nat).
Definition relc (h0 : heap) (v : Z * ctx * T) (w : Z * hctx * heap * T) : Prop :=
  let '(r, c, s) := v in let '(r', hc, h, s') := w in r' = r /\ s' = s /\ ctx_rep h hc c O /\ mild h0 h O.
Ltac own X := apply (occs_eq _ X); [occs|assumption].
Ltac milds := repeat (eassumption || (eapply mild_incl; [eassumption|incls]) || (eapply mild_trans; [eapply mild_incl; [eassumption|incls]|])).

Lemma app_mild h h' Y Ai icc Aa app_ k : app_rep h Ai icc Aa app_ k -> mild h h' Y -> incl Aa Y -> app_rep h' Ai icc Aa app_ k.
Proof.
  unfold app_rep. destruct app_ as [[tl p]|], k as [[a w]|]; auto. intros (R & W) M I. split; [eapply rep_mild; eassumption|].
  destruct w; [exact W|exact W|]. destruct M as (_ & M). exact (M _ W).
Qed.

Lemma initiate_step buf s c hc h pos : ctx_rep h hc c O ->
  in_step (relc h) (initiate x buf s c pos) (initiate_h x buf s hc h pos).
Proof.
  intros (Ac & Ap & Aa & Ai & At & Rc & Rp & Ra & Ri & Rt & H). unfold initiate, initiate_h.
  destruct (k_app c) as [[a w]|] eqn:Ek.
  2:{ unfold app_rep in Ra. destruct (c_app hc) as [[tl p]|] eqn:Eh; [contradiction|]. subst Aa.
      apply step_ret. split; [reflexivity|]. split; [reflexivity|]. split; [|apply mild_refl].
      exists Ac, Ap, [], Ai, At. rewrite Ek, Eh. repeat (split; [assumption || reflexivity|]). exact H. }
  unfold app_rep in Ra. destruct (c_app hc) as [[tl p]|] eqn:Eh; [|contradiction]. destruct Ra as (Ra & W).
  (* the lists are cleared *)
  assert (Hi : owns h (Ai ++ Ac ++ Ap ++ Aa ++ At ++ O)) by own (Ac ++ Ap ++ Aa ++ Ai ++ At ++ O).
  destruct (t_clear h (c_icc hc) Ai (k_icc c) _ Ri Hi) as (h1 & E1 & H1 & M1 & D1). rewrite E1. cbn [bind].
  assert (Rt1 : rep h1 (c_term hc) At (k_term c)) by (eapply rep_mild; [exact Rt|exact M1|incls]).
  assert (Ht : owns h1 (At ++ Ac ++ Ap ++ Aa ++ O)) by own (Ac ++ Ap ++ Aa ++ At ++ O).
  destruct (t_clear h1 (c_term hc) At (k_term c) _ Rt1 Ht) as (h2 & E2 & H2 & M2 & D2). rewrite E2. cbn [bind]. cbv zeta.
  set (Y := Ac ++ Ap ++ Aa ++ O) in *.
  assert (MY : mild h h2 Y).
  { eapply mild_trans; [eapply mild_incl; [exact M1|unfold Y; incls]|exact M2]. }
  destruct (t_push h2 tlist_init [] [] Y (mkField 0x9F39 1 [pos] 0) (rep_init h2) H2) as (h3 & l3 & A3 & E3 & R3 & H3 & M3).
  rewrite E3. cbn [bind]. change (negb (0 =? 0)) with false. cbv iota.
  assert (MY3 : mild h h3 Y) by (eapply mild_trans; eassumption).
  assert (Gone_ub : dead h3 p -> load h3 p = UB) by (intros (_ & D); exact D).
  assert (Ra3 : rep h3 tl Aa (a_tlvs a)) by (eapply rep_mild; [exact Ra|exact MY3|unfold Y; incls]).
  (* where the AID is *)
  assert (Dead_case : forall f, dead h3 p -> in_step (relc h) UB (let* n := load h3 p in f n)).
  { intros f D. rewrite (Gone_ub D). reflexivity. }
  assert (Live_case : w = InApp -> exists n, load h3 p = Ret n /\ n_field n = a_aid a).
  { intros ->. exact (at_load _ _ _ _ _ _ Ra3 W). }
  destruct w; cbn [after_icc_clear bind].
  2:{ apply Dead_case. assert (Hd : dead h1 p) by (apply D1; exact (at_in _ _ _ _ W)).
      destruct M2 as (_ & M2d), M3 as (_ & M3d). auto. }
  2:{ apply Dead_case. destruct MY3 as (_ & Md). auto. }
  destruct (Live_case eq_refl) as (n & En & Ef). rewrite En. cbn [bind]. rewrite Ef.
  apply step_same. intros v.
  destruct (t_push h3 l3 A3 _ Y (mkField 0x9F06 (f_len (a_aid a)) v 0) R3 H3) as (h4 & l4 & A4 & E4 & R4 & H4 & M4).
  rewrite E4. cbn [bind]. change (negb (0 =? 0)) with false. cbv iota.
  destruct (t_push h4 l4 A4 _ Y (mkField 0x9B 2 [0;0] 0) R4 H4) as (h5 & l5 & A5 & E5 & R5 & H5 & M5).
  rewrite E5. cbn [bind]. change (negb (0 =? 0)) with false. cbv iota.
  destruct (t_push h5 l5 A5 _ Y (mkField 0x95 5 [0;0;0;0;0] 0) R5 H5) as (h6 & l6 & A6 & E6 & R6 & H6 & M6).
  rewrite E6. cbn [bind]. change (negb (0 =? 0)) with false. cbv iota. cbn [app] in R6.
  set (term := [mkField 0x9F39 1 [pos] 0; mkField 0x9F06 (f_len (a_aid a)) v 0; mkField 0x9B 2 [0;0] 0; mkField 0x95 5 [0;0;0;0;0] 0]) in *.
  assert (MY6 : mild h h6 Y).
  { eapply mild_trans; [exact MY3|]. eapply mild_trans; [exact M4|]. eapply mild_trans; [exact M5|exact M6]. }
  assert (Rc6 : rep h6 (c_config hc) Ac (k_config c)) by (eapply rep_mild; [exact Rc|exact MY6|unfold Y; incls]).
  assert (Rp6 : rep h6 (c_params hc) Ap (k_params c)) by (eapply rep_mild; [exact Rp|exact MY6|unfold Y; incls]).
  assert (Ra6 : rep h6 tl Aa (a_tlvs a)) by (eapply rep_mild; [exact Ra|exact MY6|unfold Y; incls]).
  unfold Y in H6.
  rewrite (t_seen h6 (c_params hc) Ap (k_params c) (A6 ++ Ac ++ Aa ++ O) Rp6 ltac:(own (A6 ++ Ac ++ Ap ++ Aa ++ O))). cbn [bind].
  rewrite (t_seen h6 (c_config hc) Ac (k_config c) (A6 ++ Ap ++ Aa ++ O) Rc6 ltac:(own (A6 ++ Ac ++ Ap ++ Aa ++ O))). cbn [bind].
  rewrite (t_seen h6 l6 A6 term _ R6 H6). cbn [bind].
  assert (Ha6 : owns h6 (Aa ++ A6 ++ Ac ++ Ap ++ O)) by own (A6 ++ Ac ++ Ap ++ Aa ++ O).
  destruct (t_find h6 tl Aa (a_tlvs a) _ 0x9F38 Ra6 Ha6) as (pd & Epd & Hpd). rewrite Epd. cbn [bind].
  assert (Ed : deref h6 pd = Ret (find_tag 0x9F38 (a_tlvs a))).
  { destruct (find_tag 0x9F38 (a_tlvs a)) as [f|]; [|subst pd; reflexivity]. destruct Hpd as (q & -> & Hq).
    destruct (at_load _ _ _ _ _ _ Ra6 Hq) as (m & Em & Fm). unfold deref. rewrite Em. cbn [bind]. now rewrite Fm. }
  rewrite Ed. cbn [bind]. apply step_same. intros d.
  assert (MO6 : mild h h6 O) by (eapply mild_incl; [exact MY6|unfold Y; incls]).
  assert (Fail : forall h7 r s', mild h6 h7 (A6 ++ Ac ++ Ap ++ Aa ++ O) -> owns h7 (A6 ++ Ac ++ Ap ++ Aa ++ O) ->
    relc h (r, mkCtx (k_ttl c) (k_config c) (k_aids c) (k_params c) (Some (a, InApp)) [] term, s')
           (r, mkHC (c_config hc) (c_params hc) (Some (tl, p)) tlist_init l6, h7, s')).
  { intros h7 r s' M7 H7. split; [reflexivity|]. split; [reflexivity|]. split.
    - exists Ac, Ap, Aa, [], A6. cbn [c_config c_params c_app c_icc c_term k_config k_params k_app k_icc k_term].
      split; [eapply rep_mild; [exact Rc6|exact M7|incls]|]. split; [eapply rep_mild; [exact Rp6|exact M7|incls]|].
      split; [split; [eapply rep_mild; [exact Ra6|exact M7|incls]|exact W]|]. split; [apply rep_init|].
      split; [eapply rep_mild; [exact R6|exact M7|incls]|]. own (A6 ++ Ac ++ Ap ++ Aa ++ O).
    - eapply mild_trans; [exact MO6|]. eapply mild_incl; [exact M7|incls]. }
  destruct d as [d|r].
  2:{ apply step_ret. apply Fail; [apply mild_refl|exact H6]. }
  eapply step_bind; [exact (gpo_step x (A6 ++ Ac ++ Ap ++ Aa ++ O) s d h6 tlist_init [] [] (rep_init h6) H6)|].
  intros [[[[r gs] aip] afl] s1] [[[[[r' h7] g] q1] q2] s2] (-> & -> & G & RG & HG & MG & _).
  assert (Cl : forall r1, in_step (relc h) (Ret (r1, mkCtx (k_ttl c) (k_config c) (k_aids c) (k_params c) (Some (a, InApp)) [] term, s1))
     (let* (h8, _) := list_clear (fuel_for h7) h7 g in Ret (r1, mkHC (c_config hc) (c_params hc) (Some (tl, p)) tlist_init l6, h8, s1))).
  { intros r1. destruct (t_clear h7 g G gs _ RG HG) as (h8 & E8 & H8 & M8 & _). rewrite E8. cbn [bind].
    apply step_ret. apply Fail; [eapply mild_trans; eassumption|exact H8]. }
  destruct (r <? 0); [apply Cl|]. destruct (0 <? r); [apply Cl|].
  assert (Ra7 : rep h7 tl Aa (a_tlvs a)) by (eapply rep_mild; [exact Ra6|exact MG|incls]).
  assert (Ha7 : owns h7 (Aa ++ G ++ A6 ++ Ac ++ Ap ++ O)) by own (G ++ A6 ++ Ac ++ Ap ++ Aa ++ O).
  destruct (t_append h7 tl Aa (a_tlvs a) g G gs _ Ra7 RG Ha7) as (h8 & l8 & E8 & R8 & H8 & M8). rewrite E8. cbn [bind].
  change (negb (0 =? 0)) with false. cbv iota. apply step_ret. split; [reflexivity|]. split; [reflexivity|].
  assert (M68 : mild h6 h8 (A6 ++ Ac ++ Ap ++ O)).
  { eapply mild_trans; [eapply mild_incl; [exact MG|incls]|exact M8]. }
  split.
  - exists Ac, Ap, [], (Aa ++ G), A6. cbn [c_config c_params c_app c_icc c_term k_config k_params k_app k_icc k_term].
    split; [eapply rep_mild; [exact Rc6|exact M68|incls]|]. split; [eapply rep_mild; [exact Rp6|exact M68|incls]|].
    split; [split; [apply rep_init|]; cbn [a_aid]; apply at_app_l; [exact W|exact (rep_len _ _ _ _ Ra)]|].
    split; [exact R8|]. split; [eapply rep_mild; [exact R6|exact M68|incls]|].
    own ((Aa ++ G) ++ A6 ++ Ac ++ Ap ++ O).
  - eapply mild_trans; [exact MO6|]. eapply mild_incl; [exact M68|incls].
Qed.

Lemma read_step rfuel s c hc h : ctx_rep h hc c O ->
  in_step (relc h) (read_application_data x rfuel s c) (read_application_data_h x rfuel s hc h).
Proof.
  intros C. pose proof C as (Ac & Ap & Aa & Ai & At & Rc & Rp & Ra & Ri & Rt & H).
  unfold read_application_data, read_application_data_h.
  assert (Hi : owns h (Ai ++ Ac ++ Ap ++ Aa ++ At ++ O)) by own (Ac ++ Ap ++ Aa ++ Ai ++ At ++ O).
  destruct (t_find h (c_icc hc) Ai (k_icc c) _ 0x94 Ri Hi) as (pd & Epd & Hpd). rewrite Epd. cbn [bind].
  assert (Ed : deref h pd = Ret (find_tag 0x94 (k_icc c))).
  { destruct (find_tag 0x94 (k_icc c)) as [f|]; [|subst pd; reflexivity]. destruct Hpd as (q & -> & Hq).
    destruct (at_load _ _ _ _ _ _ Ri Hq) as (m & Em & Fm). unfold deref. rewrite Em. cbn [bind]. now rewrite Fm. }
  rewrite Ed. cbn [bind]. destruct (find_tag 0x94 (k_icc c)) as [afl|].
  2:{ apply step_ret. split; [reflexivity|]. split; [reflexivity|]. split; [exact C|apply mild_refl]. }
  apply step_same. intros v.
  set (Y := Ac ++ Ap ++ Aa ++ Ai ++ At ++ O) in *.
  eapply step_bind; [exact (afl_records_step x Y rfuel s v h tlist_init [] [] (rep_init h) H)|].
  intros [[r rec] s1] [[[r' h1] l1] s2] (-> & -> & B & RB & HB & MB). cbv zeta.
  assert (Keep : forall h2, mild h h2 Y -> owns h2 Y -> ctx_rep h2 hc c O /\ mild h h2 O).
  { intros h2 M2 H2. split; [|eapply mild_incl; [exact M2|unfold Y; incls]]. exists Ac, Ap, Aa, Ai, At.
    split; [eapply rep_mild; [exact Rc|exact M2|unfold Y; incls]|]. split; [eapply rep_mild; [exact Rp|exact M2|unfold Y; incls]|].
    split; [eapply app_mild; [exact Ra|exact M2|unfold Y; incls]|]. split; [eapply rep_mild; [exact Ri|exact M2|unfold Y; incls]|].
    split; [eapply rep_mild; [exact Rt|exact M2|unfold Y; incls]|]. exact H2. }
  assert (Drop : forall r1, in_step (relc h) (Ret (r1, c, s1))
     (let* (h8, _) := list_clear (fuel_for h1) h1 l1 in Ret (r1, hc, h8, s1))).
  { intros r1. destruct (t_clear h1 l1 B rec Y RB HB) as (h8 & E8 & H8 & M8 & _). rewrite E8. cbn [bind].
    apply step_ret. split; [reflexivity|]. split; [reflexivity|]. apply Keep; [eapply mild_trans; eassumption|exact H8]. }
  destruct (r <? 0); [apply Drop|]. destruct (negb (r =? 0) && negb (r =? TAL_ODA_RECORD_INVALID))%bool; [apply Drop|].
  rewrite (t_dup h1 l1 B rec Y RB HB). cbn [bind]. destruct (has_duplicate rec); [apply Drop|].
  rewrite (t_seen h1 l1 B rec Y RB HB). cbn [bind].
  match goal with |- in_step _ (if ?b then _ else _) _ => destruct b; [apply Drop|] end.
  assert (Ri1 : rep h1 (c_icc hc) Ai (k_icc c)) by (eapply rep_mild; [exact Ri|exact MB|unfold Y; incls]).
  unfold Y in HB.
  assert (Ha1 : owns h1 (Ai ++ B ++ Ac ++ Ap ++ Aa ++ At ++ O)) by own (B ++ Ac ++ Ap ++ Aa ++ Ai ++ At ++ O).
  destruct (t_append h1 (c_icc hc) Ai (k_icc c) l1 B rec _ Ri1 RB Ha1) as (h2 & l2 & E2 & R2 & H2 & M2). rewrite E2. cbn [bind].
  destruct (t_clear h2 tlist_init [] [] ((Ai ++ B) ++ Ac ++ Ap ++ Aa ++ At ++ O) (rep_init h2) H2) as (h3 & E3 & H3 & M3 & _).
  rewrite E3. cbn [bind]. apply step_ret. split; [reflexivity|]. split; [reflexivity|].
  assert (M03 : mild h h3 (Ac ++ Ap ++ Aa ++ At ++ O)).
  { eapply mild_trans; [eapply mild_incl; [exact MB|unfold Y; incls]|]. eapply mild_trans; [exact M2|].
    eapply mild_incl; [exact M3|incls]. }
  split; [|eapply mild_incl; [exact M03|incls]].
  exists Ac, Ap, Aa, (Ai ++ B), At. cbn [c_config c_params c_app c_icc c_term k_config k_params k_app k_icc k_term].
  split; [eapply rep_mild; [exact Rc|exact M03|incls]|]. split; [eapply rep_mild; [exact Rp|exact M03|incls]|].
  split.
  { assert (Ra3 : app_rep h3 Ai (k_icc c) Aa (c_app hc) (k_app c)) by (eapply app_mild; [exact Ra|exact M03|incls]).
    unfold app_rep in *. destruct (c_app hc) as [[tl p]|], (k_app c) as [[a w]|]; auto. destruct Ra3 as (Rx & Wx).
    split; [exact Rx|]. destruct w; [exact Wx| |exact Wx]. apply at_app_l; [exact Wx|exact (rep_len _ _ _ _ Ri)]. }
  split; [eapply rep_mild; [exact R2|exact M3|incls]|]. split; [eapply rep_mild; [exact Rt|exact M03|incls]|].
  own ((Ai ++ B) ++ Ac ++ Ap ++ Aa ++ At ++ O).
Qed.

Lemma reset_step c hc h : ctx_rep h hc c O ->
  exists hc' h', reset_h hc h = Ret (0, hc', h') /\ ctx_rep h' hc' (snd (ctx_reset c)) O /\ mild h h' O.
Proof.
  intros (Ac & Ap & Aa & Ai & At & Rc & Rp & Ra & Ri & Rt & H). unfold reset_h.
  assert (H0 : owns h (Ap ++ Ac ++ Aa ++ Ai ++ At ++ O)) by own (Ac ++ Ap ++ Aa ++ Ai ++ At ++ O).
  destruct (t_clear h (c_params hc) Ap _ _ Rp H0) as (h1 & E1 & H1 & M1 & _). rewrite E1. cbn [bind].
  assert (Ri1 : rep h1 (c_icc hc) Ai (k_icc c)) by (eapply rep_mild; [exact Ri|exact M1|incls]).
  assert (H1' : owns h1 (Ai ++ Ac ++ Aa ++ At ++ O)) by own (Ac ++ Aa ++ Ai ++ At ++ O).
  destruct (t_clear h1 (c_icc hc) Ai _ _ Ri1 H1') as (h2 & E2 & H2 & M2 & _). rewrite E2. cbn [bind].
  assert (M02 : mild h h2 (Ac ++ Aa ++ At ++ O)) by (eapply mild_trans; [eapply mild_incl; [exact M1|incls]|exact M2]).
  assert (Rt2 : rep h2 (c_term hc) At (k_term c)) by (eapply rep_mild; [exact Rt|exact M02|incls]).
  assert (H2' : owns h2 (At ++ Ac ++ Aa ++ O)) by own (Ac ++ Aa ++ At ++ O).
  destruct (t_clear h2 (c_term hc) At _ _ Rt2 H2') as (h3 & E3 & H3 & M3 & _). rewrite E3. cbn [bind].
  assert (M03 : mild h h3 (Ac ++ Aa ++ O)) by (eapply mild_trans; [eapply mild_incl; [exact M02|incls]|exact M3]).
  assert (Last : exists h4, match c_app hc with
      | Some (tl, _) => let* (h, _) := list_clear (fuel_for h3) h3 tl in Ret h
      | None => Ret h3 end = Ret h4 /\ owns h4 (Ac ++ O) /\ mild h3 h4 (Ac ++ O)).
  { unfold app_rep in Ra. destruct (c_app hc) as [[tl p]|], (k_app c) as [[a w]|]; try contradiction.
    - destruct Ra as (Ra & _). assert (Ra3 : rep h3 tl Aa (a_tlvs a)) by (eapply rep_mild; [exact Ra|exact M03|incls]).
      assert (H3' : owns h3 (Aa ++ Ac ++ O)) by own (Ac ++ Aa ++ O).
      destruct (t_clear h3 tl Aa _ _ Ra3 H3') as (h4 & E4 & H4 & M4 & _). rewrite E4. cbn [bind]. eauto.
    - subst Aa. exists h3. split; [reflexivity|]. split; [exact H3|apply mild_refl]. }
  destruct Last as (h4 & E4 & H4 & M4). rewrite E4. cbn [bind]. do 2 eexists. split; [reflexivity|].
  assert (M04 : mild h h4 (Ac ++ O)) by (eapply mild_trans; [eapply mild_incl; [exact M03|incls]|exact M4]).
  split; [|eapply mild_incl; [exact M04|incls]].
  exists Ac, [], [], [], []. cbn [ctx_reset snd c_config c_params c_app c_icc c_term k_config k_params k_app k_icc k_term].
  split; [eapply rep_mild; [exact Rc|exact M04|incls]|]. split; [apply rep_init|]. split; [reflexivity|].
  split; [apply rep_init|]. split; [apply rep_init|]. exact H4.
Qed.

Definition relw (h0 : heap) (v : list Z * ctx * T) (w : list Z * hctx * heap * T) : Prop :=
  let '(r, c, s) := v in let '(r', hc, h, s') := w in r' = r /\ s' = s /\ ctx_rep h hc c O /\ mild h0 h O.
Lemma works_step buf rfuel : forall os s c hc h, ctx_rep h hc c O ->
  in_step (relw h) (works x buf rfuel os s c) (works_h x buf rfuel os s hc h).
Proof.
  induction os as [|o os IH]; intros s c hc h C; cbn [works works_h].
  - apply step_ret. split; [reflexivity|]. split; [reflexivity|]. split; [exact C|apply mild_refl].
  - assert (St : in_step (relc h) (work x buf rfuel o s c) (work_h x buf rfuel o s hc h)).
    { destruct o as [pos| |]; cbn [work work_h]; [now apply initiate_step|now apply read_step|].
      destruct (reset_step c hc h C) as (hc' & h' & E & C' & M'). rewrite E. cbn [bind].
      destruct (ctx_reset c) as [r c'] eqn:Er. cbn [snd] in C'. unfold ctx_reset in Er. injection Er as <- Ec.
      apply step_ret. split; [reflexivity|]. split; [reflexivity|]. split; [exact C'|exact M']. }
    eapply step_bind; [exact St|]. intros [[r c1] s1] [[[r' hc1] h1] s2] (-> & -> & C1 & M1).
    eapply step_bind; [exact (IH s1 c1 hc1 h1 C1)|].
    intros [[rs c2] s3] [[[rs' hc2] h2] s4] (-> & -> & C2 & M2). apply step_ret.
    split; [reflexivity|]. split; [reflexivity|]. split; [exact C2|]. eapply mild_trans; eassumption.
Qed.
End Ctx.
