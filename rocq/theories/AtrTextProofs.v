(** Proofs about the descriptions of an answer to reset. *)
From Coq Require Import String.
From Verif Require Import Base BaseLemmas DolSpec DolProofs StrModel StrSpec AtrModel AtrSpec AtrProofs CapduSpec CapduProofs AtrTextModel AtrTextSpec.
From Verif Require FlagsTexts.
Open Scope Z_scope.
Open Scope list_scope.
Notation length := List.length.

(** ** What the parser keeps *)
Lemma finish_inv atr buf TS T0 idx tck p ps x : finish atr buf TS T0 idx tck p ps = Ret (inr x) ->
  i_atr x = buf /\ i_TS x = TS /\ i_K x = Z.land T0 15 /\ i_ptrs x = ps /\ i_params x = p /\
  compute_gt p = (i_GT x, i_CGT x) /\ compute_wt p = (i_WT x, i_CWT x, i_BWT x) /\ (idx <= length atr)%nat /\ (idx + Z.to_nat (Z.land T0 15) <= length atr)%nat /\
  exists h st next, parse_hist buf idx (Z.land T0 15) = gives (i_T1 x, h, st, next).
Proof.
  unfold finish. intros E. destruct (compute_gt p) as (gt, cgt). destruct (compute_wt p) as ((wt, cwt), bwt).
  destruct (Nat.ltb_spec (length atr) idx); [discriminate|]. destruct (Nat.ltb_spec (length atr) (idx + Z.to_nat (Z.land T0 15))); [discriminate|].
  apply ebind_gives in E as ((((t1, h), st), next) & E1 & E). destruct (length atr <? next)%nat; [discriminate|].
  apply ebind_gives in E as (TCK & _ & E). destruct (status_fields st) as ((lcs, sw1), sw2). apply gives_inj in E. subst x. cbn.
  repeat (split; [auto|]). eauto.
Qed.
Lemma atr_run atr x : bytes atr -> atr_parse atr = Ret (inr x) -> exists ts t0 tl gs r tck p,
  atr = ts :: t0 :: tl /\ (length atr <= 33)%nat /\ good_ts ts /\ visit 4 t0 gs /\ tl ++ repeat 0 (33 - length atr) = flat_map goctets gs ++ r /\ bytes (flat_map goctets gs) /\
  run 1 0 false default_params gs = gives (tck, p) /\
  finish atr (atr ++ repeat 0 (33 - length atr)) ts t0 (end_of gs) tck p (places 1 gs) = Ret (inr x).
Proof.
  intros B E. assert (L : (2 <= length atr <= 33)%nat).
  { unfold atr_parse in E. destruct (Nat.ltb_spec (length atr) 2), (Nat.ltb_spec 33 (length atr)); cbn [orb] in E; try discriminate E. lia. }
  destruct (atr_shape atr L) as (ts & t0 & tl & gs & r & Ea & V & Et).
  pose proof (atr_unfold ts t0 tl gs r) as U. cbn zeta in U. rewrite <- Ea in U. rewrite U in E by (auto; lia). clear U.
  destruct (negb (ts =? 0x3B) && negb (ts =? 0x3F)) eqn:Ets; [discriminate|].
  apply ebind_gives in E as ((tck, p) & Er & E).
  exists ts, t0, tl, gs, r, tck, p. split; [exact Ea|]. split; [lia|]. split.
  { unfold good_ts. destruct (Z.eqb_spec ts 0x3B), (Z.eqb_spec ts 0x3F); cbn in Ets; auto; discriminate. }
  split; [exact V|]. split; [exact Et|]. split; [|auto].
  assert (Bb : bytes (tl ++ repeat 0 (33 - length atr))).
  { apply bytes_app_intro; [rewrite Ea in B; apply Forall_inv_tail, Forall_inv_tail in B; exact B|].
    apply Forall_forall. intros y Hy. apply repeat_spec in Hy. subst. unfold is_byte; lia. }
  rewrite Et in Bb. apply bytes_app in Bb. tauto.
Qed.

(** ** The pointers, also with TD4 *)
Lemma places_visit n y gs : visit n y gs -> forall pre r buf idx k, buf = pre ++ y :: flat_map goctets gs ++ r -> idx = length pre ->
  let at_k f := match nth_error (places idx gs) k with Some t => match f t with None => Ret None | Some j => let* b := rd buf j in Ret (Some b) end | None => Ret None end in
  let of_k (h : group -> option Z) := match nth_error gs k with Some g => h g | None => None end in
  at_k t_A = Ret (of_k gA) /\ at_k t_B = Ret (of_k gB) /\ at_k t_C = Ret (of_k gC) /\ at_k t_D = Ret (of_k gD).
Proof.
  intros V. induction V as [y|n y g M D|n y g t gs M D V IH]; intros pre r buf idx k Eb Ei at_k of_k.
  - subst at_k of_k. cbn beta. destruct k; cbn; auto.
  - apply (places_spec [g] y pre r buf idx k); auto. apply groups_last; auto.
  - destruct k as [|k]; subst at_k of_k; cbn beta.
    + cbn [nth_error places]. cbn [t_A t_B t_C t_D]. cbn [flat_map] in Eb. unfold goctets at 1 in Eb. rewrite <- !app_assoc in Eb.
      assert (Q : forall o pre' r', buf = pre' ++ oct o ++ r' -> (match at_ o (length pre') with None => Ret None | Some j => let* b := rd buf j in Ret (Some b) end) = Ret o).
      { intros o pre' r' E. destruct o as [b|]; cbn [at_]; [|reflexivity]. rewrite E. cbn [oct app]. rewrite rd_app_mid by reflexivity. reflexivity. }
      split; [|split; [|split]].
      * rewrite <- (Q (gA g) (pre ++ [y]) (oct (gB g) ++ oct (gC g) ++ oct (gD g) ++ flat_map goctets gs ++ r)); [|rewrite Eb, <- app_assoc; reflexivity].
        rewrite app_length. cbn [length]. replace (length pre + 1)%nat with (S idx) by lia. reflexivity.
      * rewrite <- (Q (gB g) (pre ++ [y] ++ oct (gA g)) (oct (gC g) ++ oct (gD g) ++ flat_map goctets gs ++ r)); [|rewrite Eb, <- !app_assoc; reflexivity].
        rewrite !app_length. cbn [length]. replace (length pre + (1 + length (oct (gA g))))%nat with (S idx + length (oct (gA g)))%nat by lia. reflexivity.
      * rewrite <- (Q (gC g) (pre ++ [y] ++ oct (gA g) ++ oct (gB g)) (oct (gD g) ++ flat_map goctets gs ++ r)); [|rewrite Eb, <- !app_assoc; reflexivity].
        rewrite !app_length. cbn [length]. replace (length pre + (1 + (length (oct (gA g)) + length (oct (gB g)))))%nat with (S idx + length (oct (gA g)) + length (oct (gB g)))%nat by lia. reflexivity.
      * rewrite <- (Q (gD g) (pre ++ [y] ++ oct (gA g) ++ oct (gB g) ++ oct (gC g)) (flat_map goctets gs ++ r)); [|rewrite Eb, <- !app_assoc; reflexivity].
        rewrite !app_length. cbn [length]. replace (length pre + (1 + (length (oct (gA g)) + (length (oct (gB g)) + length (oct (gC g))))))%nat with (S idx + length (oct (gA g)) + length (oct (gB g)) + length (oct (gC g)))%nat by lia. reflexivity.
    + cbn [nth_error places]. rewrite D. apply (IH (pre ++ [y] ++ oct (gA g) ++ oct (gB g) ++ oct (gC g)) r buf).
      * rewrite Eb. cbn [flat_map]. unfold goctets at 1. rewrite D. cbn [oct]. rewrite <- !app_assoc. reflexivity.
      * rewrite !app_length. cbn [length]. lia.
Qed.
Lemma deref_visit ts t0 tl gs r x : visit 4 t0 gs -> i_atr x = ts :: t0 :: tl ++ r -> (exists r', tl ++ r = flat_map goctets gs ++ r') -> i_ptrs x = places 1 gs -> deref_all gs x.
Proof.
  intros V Ea (r' & E) Ep i Hi.
  assert (Eb : i_atr x = [ts] ++ t0 :: flat_map goctets gs ++ r') by (rewrite Ea, E; reflexivity).
  destruct (places_visit 4 t0 gs V [ts] r' (i_atr x) 1%nat (i - 1)%nat Eb eq_refl) as (H1 & H2 & H3 & H4).
  unfold deref, ptr, byte_of. rewrite Ep. destruct (nth_error (places 1 gs) (i - 1)); auto.
Qed.
Definition presents gs x := forall i, (1 <= i)%nat ->
  present t_A i x = is_some (byte_of gA i gs) /\ present t_B i x = is_some (byte_of gB i gs) /\ present t_C i x = is_some (byte_of gC i gs) /\ present t_D i x = is_some (byte_of gD i gs).
Lemma deref_present f i x o : deref f i x = Ret o -> present f i x = is_some o.
Proof. unfold deref, present. destruct (ptr f i x) as [k|]; [|intros [= <-]; reflexivity]. destruct (rd (i_atr x) k); cbn [bind]; try discriminate. intros [= <-]; reflexivity. Qed.
Lemma presents_ok gs x : deref_all gs x -> presents gs x.
Proof. intros H i Hi. destruct (H i Hi) as (H1 & H2 & H3 & H4). split; [|split; [|split]]; apply deref_present; assumption. Qed.

(** ** The other parameters *)
Definition ipp_of (b : Z) : Z := nth (Z.to_nat ((b / 32) mod 4)) [25; 50; 100] 0.
Lemma TB1_more b p q : is_byte b -> parse_TB1 b p = gives q ->
  (b = 0 /\ q = set_vpp false (p_vpp p) (p_vpp_course p) (p_ipp p) p) \/
  (b <> 0 /\ q = set_vpp true (b mod 32 * 1000) (b mod 32 * 1000) (ipp_of b) p).
Proof.
  intros B. unfold parse_TB1. destruct (Z.eqb_spec b 0) as [->|N]; [intros [= <-]; left; auto|].
  assert (E1 : Z.land b 31 = b mod 32) by (change 31 with (Z.ones 5); apply Z.land_ones; lia).
  rewrite E1. destruct ((b mod 32 <? 5) || (25 <? b mod 32)); [discriminate|].
  assert (E2 : Z.land b 0x60 = 32 * ((b / 32) mod 4)).
  { clear -B. apply Z.eqb_eq. revert b B. apply byte_sweep. vm_compute; reflexivity. }
  rewrite E2. unfold ipp_of. assert (R : 0 <= (b / 32) mod 4 < 4) by (apply Z.mod_pos_bound; lia). set (m := (b / 32) mod 4) in *. clearbody m.
  assert (C : m = 0 \/ m = 1 \/ m = 2 \/ m = 3) by lia. destruct C as [->|[->|[->| ->]]]; cbn; intro E; inversion E; right; auto.
Qed.
Definition TB1_ok (o : option Z) (p : params) : Prop :=
  forall b, o = Some b -> p_vpp_connected p = negb (b =? 0) /\ (b <> 0 -> p_vpp_course p = b mod 32 * 1000 /\ p_ipp p = ipp_of b).
Definition TA2_ok (o : option Z) (p : params) : Prop :=
  forall a, o = Some a -> p_specific_protocol p = prot a /\ p_etu_implicit p = Z.testbit a 4 /\ p_may_change p = negb (Z.testbit a 7).
Definition TB2_ok (o : option Z) (p : params) : Prop := forall b, o = Some b -> p_vpp p = b * 100 /\ p_vpp_connected p = true.
Definition glob_ok (a b : option Z) (p : params) : Prop :=
  p_classes p = match a with Some b => b mod 64 | None => 1 end /\ p_clock_stop p = match a with Some b => b / 64 | None => 0 end /\
  p_spu p = match b with Some b => if b =? 0 then 0 else if b / 128 =? 0 then 1 else 2 | None => 0 end.
Lemma group1_more proto g q : bytes (goctets g) -> run_group 1 proto g default_params = gives q ->
  In (dflt (gA g) 0x11 / 16, (p_Fi q, p_fmax q)) table7 /\ TB1_ok (gB g) q /\ glob_ok None None q.
Proof.
  intros Hb. destruct (gbytes g Hb) as (Ba & Bb & Bc & _). unfold run_group, pick. rewrite ebind_gives. setoid_rewrite ebind_gives.
  intros (p1 & E1 & p2 & E2 & E3). unfold TB1_ok. destruct g as [a b c d]; cbn [gA gB gC] in *.
  assert (P1 : exists fi fm di, In (dflt a 0x11 / 16, (fi, fm)) table7 /\ p1 = set_TA1 di fi fm default_params).
  { destruct a as [a|]; cbn [opt_step dflt] in *.
    - apply TA1_spec in E1; [|auto]. destruct E1 as (fi & fm & di & I1 & I2 & ->). eauto 8.
    - apply gives_inj in E1. exists 372, 50, 1. split; [cbn; tauto|]. rewrite <- E1. reflexivity. }
  destruct P1 as (fi & fm & di & I7 & ->).
  assert (Eq : q = opt set_N c p2).
  { destruct c as [c|]; cbn [opt_step opt] in *; apply gives_inj in E3; auto. }
  assert (P2 : p_Fi p2 = fi /\ p_fmax p2 = fm /\ TB1_ok b p2 /\ glob_ok None None p2).
  { unfold TB1_ok, glob_ok. destruct b as [b|]; cbn [opt_step] in *.
    - apply TB1_more in E2; [|auto]. destruct E2 as [(-> & ->)|(Nb & ->)]; autorewrite with getset; (split; [reflexivity|]; split; [reflexivity|]; split; [|auto]);
        intros x [= <-]; [split; [reflexivity|congruence]|]. split; [destruct (Z.eqb_spec b 0); [congruence|reflexivity]|auto].
    - apply gives_inj in E2. subst p2. autorewrite with getset. split; [reflexivity|]. split; [reflexivity|]. split; [discriminate|auto]. }
  destruct P2 as (<- & <- & P3 & P4). unfold TB1_ok, glob_ok in *. subst q. destruct c as [c|]; cbn [opt]; autorewrite with getset; auto.
Qed.
Lemma land16 a : is_byte a -> negb (Z.land a 0x10 =? 0) = Z.testbit a 4.
Proof. intro B. apply Bool.eqb_prop. revert a B. apply (byte_sweep (fun a => Bool.eqb (negb (Z.land a 0x10 =? 0)) (Z.testbit a 4))). vm_compute; reflexivity. Qed.
Lemma land128 a : is_byte a -> (Z.land a 0x80 =? 0) = negb (Z.testbit a 7).
Proof. intro B. apply Bool.eqb_prop. revert a B. apply (byte_sweep (fun a => Bool.eqb (Z.land a 0x80 =? 0) (negb (Z.testbit a 7)))). vm_compute; reflexivity. Qed.
Lemma group2_more proto g p q : bytes (goctets g) -> run_group 2 proto g p = gives q ->
  (p_Fi q = p_Fi p /\ p_fmax q = p_fmax p /\ p_vpp_connected q = p_vpp_connected p /\ p_vpp_course q = p_vpp_course p /\ p_ipp q = p_ipp p /\
   p_classes q = p_classes p /\ p_clock_stop q = p_clock_stop p /\ p_spu q = p_spu p) /\ TA2_ok (gA g) q /\ TB2_ok (gB g) q.
Proof.
  intros Hb. destruct (gbytes g Hb) as (Ba & Bb & Bc & _). unfold run_group, pick. rewrite ebind_gives. setoid_rewrite ebind_gives.
  intros (p1 & E1 & p2 & E2 & E3). unfold TA2_ok, TB2_ok. destruct g as [a b c d]; cbn [gA gB gC] in *.
  assert (Eq : q = opt set_WI c p2).
  { destruct c as [c|]; cbn [opt_step opt] in *; [apply TC2_spec in E3 as (_ & ->); reflexivity|apply gives_inj in E3; auto]. }
  assert (E1' : p1 = opt (fun b => set_TA2 true (Z.land b 0x0F) (negb (Z.land b 0x10 =? 0)) (Z.land b 0x80 =? 0)) a p).
  { destruct a as [a|]; cbn [opt_step opt] in *; apply gives_inj in E1; auto. }
  assert (E2' : p2 = opt (fun b => set_vpp true (b * 100) (p_vpp_course p1) (p_ipp p1)) b p1 /\ (b <> None -> p_vpp_connected p1 = true)).
  { destruct b as [b|]; cbn [opt_step opt] in *; [apply TB2_spec in E2 as (C & _ & ->); auto|apply gives_inj in E2; split; [auto|congruence]]. }
  destruct E2' as (E2' & C). clear E1 E2 E3.
  assert (Ca : p_vpp_connected p1 = p_vpp_connected p) by (subst p1; destruct a; cbn [opt]; autorewrite with getset; reflexivity).
  split; [|split].
  - destruct a as [a|]; destruct b as [b|]; destruct c as [c|]; cbn [opt] in *; subst q p2 p1; autorewrite with getset in *;
      rewrite ?C by discriminate; auto 12.
  - intros z ->. cbn [opt] in *. specialize (Ba z eq_refl). rewrite land15, land16, land128 in E1' by exact Ba.
    destruct b as [b|]; destruct c as [c|]; cbn [opt] in *; subst q p2 p1; autorewrite with getset; auto.
  - intros z ->. cbn [opt] in *. destruct c as [c|]; cbn [opt] in *; subst q p2; autorewrite with getset; auto.
Qed.
Lemma eff3_more u g p :
  let q := eff3 u g p in
  (p_Fi q = p_Fi p /\ p_fmax q = p_fmax p /\ p_vpp_connected q = p_vpp_connected p /\ p_vpp q = p_vpp p /\ p_vpp_course q = p_vpp_course p /\ p_ipp q = p_ipp p /\
   p_specific_protocol q = p_specific_protocol p /\ p_etu_implicit q = p_etu_implicit p /\ p_may_change q = p_may_change p) /\
  p_classes q = match (if u =? 15 then gA g else None) with Some b => b mod 64 | None => p_classes p end /\
  p_clock_stop q = match (if u =? 15 then gA g else None) with Some b => b / 64 | None => p_clock_stop p end /\
  p_spu q = match (if u =? 15 then gB g else None) with Some b => if b =? 0 then 0 else if b / 128 =? 0 then 1 else 2 | None => p_spu p end.
Proof.
  unfold eff3, effA, effB, effC. destruct g as [a b c d]; cbn [gA gB gC].
  destruct (Z.eqb_spec u 15) as [->|N]; [change (15 =? 1) with false|destruct (u =? 1)];
    destruct a, b, c; cbn [opt dflt]; autorewrite with getset; auto 20.
Qed.
Lemma eff_list_more l : forall p,
  let q := eff_list l p in
  (p_Fi q = p_Fi p /\ p_fmax q = p_fmax p /\ p_vpp_connected q = p_vpp_connected p /\ p_vpp q = p_vpp p /\ p_vpp_course q = p_vpp_course p /\ p_ipp q = p_ipp p /\
   p_specific_protocol q = p_specific_protocol p /\ p_etu_implicit q = p_etu_implicit p /\ p_may_change q = p_may_change p) /\
  p_classes q = match last_for gA 15 l with Some b => b mod 64 | None => p_classes p end /\
  p_clock_stop q = match last_for gA 15 l with Some b => b / 64 | None => p_clock_stop p end /\
  p_spu q = match last_for gB 15 l with Some b => if b =? 0 then 0 else if b / 128 =? 0 then 1 else 2 | None => p_spu p end.
Proof.
  induction l as [|(u, g) l IH]; intros p; cbn zeta.
  - cbn. auto 20.
  - unfold eff_list. cbn [fold_left fst snd last_for]. fold (eff_list l (eff3 u g p)).
    specialize (IH (eff3 u g p)). cbn zeta in IH. pose proof (eff3_more u g p) as K. cbn zeta in K.
    destruct IH as ((H1 & H2 & H3 & H4 & H5 & H6 & H7 & H8 & H9) & H10 & H11 & H12). destruct K as ((K1 & K2 & K3 & K4 & K5 & K6 & K7 & K8 & K9) & K10 & K11 & K12).
    rewrite H1, H2, H3, H4, H5, H6, H7, H8, H9, H10, H11, H12.
    split; [repeat (split; [assumption|]); assumption|].
    destruct (last_for gA 15 l), (last_for gB 15 l); auto.
Qed.
Definition more_ok (gs : list group) (p : params) : Prop :=
  In (dflt (byte_of gA 1 gs) 0x11 / 16, (p_Fi p, p_fmax p)) table7 /\ TB1_ok (byte_of gB 1 gs) p /\ TA2_ok (byte_of gA 2 gs) p /\ TB2_ok (byte_of gB 2 gs) p /\
  glob_ok (last_for gA 15 (specific gs)) (last_for gB 15 (specific gs)) p.
#[local] Opaque run_group.
Lemma run_more t0 gs tck p : visit 4 t0 gs -> bytes (flat_map goctets gs) -> run 1 0 false default_params gs = gives (tck, p) -> more_ok gs p.
Proof.
  intros V B E. unfold more_ok, byte_of. inversion V as [|? ? g1 M1 D1|? ? g1 t1 gs1 M1 D1 V1]; subst; cbn [flat_map] in B; apply bytes_app in B as (B1 & B);
    cbn [run] in E; apply ebind_gives in E as (p1 & E1 & E); apply (group1_more _ _ _ B1) in E1;
    destruct E1 as (A1 & A2 & A3); rewrite D1 in E.
  - apply gives_inj in E. injection E as <- <-. cbn [nth_error Nat.sub specific last_for]. split; [exact A1|]. split; [exact A2|]. split; [intros ? [=]|]. split; [intros ? [=]|exact A3].
  - apply ebind_gives in E as (p1' & Ed & E). apply TD_spec in Ed. destruct Ed as [(_ & T1 & ->)|(X & _)]; [|congruence].
    rewrite land15 in E. fold (prot t1) in E. change (1 + 1) with 2 in E.
    inversion V1 as [|? ? g2 M2 D2|? ? g2 t2 gs2 M2 D2 V2]; subst; cbn [flat_map] in B; apply bytes_app in B as (B2 & B);
      cbn [run] in E; apply ebind_gives in E as (p2 & E2 & E); apply (group2_more _ _ _ _ B2) in E2;
      destruct E2 as ((K1 & K2 & K3 & K4 & K5 & K6 & K7 & K8) & K9 & K10); rewrite D2 in E;
      revert K1 K2 K3 K4 K5 K6 K7 K8; autorewrite with getset; intros K1 K2 K3 K4 K5 K6 K7 K8; cbn [nth_error Nat.sub specific tagged].
    + apply gives_inj in E. injection E as <- <-. unfold TB1_ok, glob_ok in *. cbn [last_for]. rewrite K1, K2, K3, K4, K5, K6, K7, K8. auto.
    + apply ebind_gives in E as (p2' & Ed & E). apply TD_spec in Ed. destruct Ed as [(X & _)|(_ & T2 & ->)]; [lia|].
      rewrite land15 in E. fold (prot t2) in E. change (2 + 1) with 3 in E.
      apply (run3 _ _ _ V2) in E; [|lia|exact B]. destruct E as (F & Fd & [= -> ->]).
      pose proof (eff_list_more (tagged (Some t2) gs2) p2) as Q. cbn zeta in Q. destruct Q as ((Q1 & Q2 & Q3 & Q4 & Q5 & Q6 & Q7 & Q8 & Q9) & Q10 & Q11 & Q12).
      rewrite D2. unfold TB1_ok, TA2_ok, TB2_ok, glob_ok in *. rewrite Q1, Q2, Q3, Q4, Q5, Q6, Q7, Q8, Q9, Q10, Q11, Q12.
      destruct A3 as (C1 & C2 & C3). rewrite K6, K7, K8, C1, C2, C3. split; [rewrite K1, K2; exact A1|]. split; [rewrite K3, K4, K5; exact A2|]. auto.
Qed.

(** ** All facts *)
Record facts (ts t0 : Z) (gs : list group) (x : info) : Prop := mkFacts {
  f_ts : good_ts ts; f_TS : i_TS x = ts; f_K : i_K x = t0 mod 16; f_deref : deref_all gs x; f_present : presents gs x; f_valid : iso_valid gs;
  f_params : params_ok gs (i_params x); f_more : more_ok gs (i_params x); f_bytes : bytes (flat_map goctets gs); f_visit : visit 4 t0 gs;
  f_gt : compute_gt (i_params x) = (i_GT x, i_CGT x); f_wt : compute_wt (i_params x) = (i_WT x, i_CWT x, i_BWT x) }.
Lemma atr_facts atr x : bytes atr -> atr_parse atr = Ret (inr x) -> exists ts t0 gs tl r, facts ts t0 gs x /\ atr = ts :: t0 :: tl /\
  tl ++ repeat 0 (33 - length atr) = flat_map goctets gs ++ r /\ (end_of gs + Z.to_nat (t0 mod 16) <= length atr)%nat /\
  exists h st next, parse_hist (atr ++ repeat 0 (33 - length atr)) (end_of gs) (t0 mod 16) = gives (i_T1 x, h, st, next).
Proof.
  intros B E. destruct (atr_run atr x B E) as (ts & t0 & tl & gs & r & tck & p & Ea & L & Gt & V & Et & Bg & Er & Ef).
  apply finish_inv in Ef as (F1 & F2 & F3 & F4 & F5 & F6 & F7 & F8 & F9 & F10). rewrite land15 in *.
  exists ts, t0, gs, tl, r. split; [|auto].
  assert (D : deref_all gs x).
  { eapply (deref_visit ts t0 tl gs (repeat 0 (33 - length atr))); [exact V|rewrite F1, Ea at 1; reflexivity|exists r; exact Et|exact F4]. }
  destruct (run_fwd t0 gs tck p V Bg Er) as (Vi & _ & Pp). pose proof (run_more t0 gs tck p V Bg Er) as Pm. rewrite <- F5 in *.
  constructor; auto. apply presents_ok, D.
Qed.
Lemma layout_facts atr x ts t0 gs hist tck rest : bytes atr -> ~ td4 atr -> atr_parse atr = Ret (inr x) -> layout atr ts t0 gs hist tck rest ->
  facts ts t0 gs x /\ i_T1 x = hd 0 hist /\ groups t0 gs /\ Zlen hist = t0 mod 16.
Proof.
  intros B N E (El & G & Lh). destruct (atr_facts atr x B E) as (ts' & t0' & gs' & tl & r & F & Ea & Et & Le & h & st & next & Eh).
  pose proof (f_visit _ _ _ _ F) as V.
  assert (C : closed gs' = true).
  { destruct (closed gs') eqn:C; [reflexivity|]. exfalso. apply N. rewrite Ea. eapply (open_td4 ts' t0' tl gs' r); eauto. rewrite Ea in Le. cbn [length] in Le. lia. }
  assert (T : exists e, tl = flat_map goctets gs' ++ e).
  { apply prefix_app in Et; [destruct Et as (e & -> & _); eauto|]. unfold end_of in Le. rewrite C in Le. rewrite Ea in Le. cbn [length] in Le. lia. }
  destruct T as (e & ->). destruct (visit_groups _ _ _ V C) as (G' & Lg). rewrite El in Ea. injection Ea as <- <- Ea.
  assert (gs' = gs) as -> by (eapply groups_unique; eauto). apply app_inv_head in Ea. subst e. split; [exact F|]. split; [|auto].
  unfold parse_hist in Eh. unfold Zlen in Lh. destruct (Z.eqb_spec (t0 mod 16) 0) as [K|K].
  - apply gives_inj in Eh. injection Eh as <- _ _ _. destruct hist; [reflexivity|cbn [length] in Lh; lia].
  - destruct hist as [|b hist]; [cbn in Lh; lia|]. cbn [hd].
    assert (R : rd (atr ++ repeat 0 (33 - length atr)) (end_of gs) = Ret b).
    { rewrite El at 1. replace ((ts :: t0 :: flat_map goctets gs ++ (b :: hist) ++ tck ++ rest) ++ repeat 0 (33 - length atr)) with
        ((ts :: t0 :: flat_map goctets gs) ++ b :: (hist ++ tck ++ rest ++ repeat 0 (33 - length atr))) by (cbn [app]; rewrite <- !app_assoc; cbn [app]; rewrite <- !app_assoc; reflexivity).
      apply rd_app_mid. unfold end_of. rewrite C. cbn [length]. lia. }
    rewrite R in Eh. cbn [bind] in Eh.
    destruct (Z.eqb_spec b 0) as [->|N0].
    { destruct (Nat.ltb_spec (Z.to_nat (t0 mod 16) - 1) 3); [discriminate|]. destruct (sub _ _ _); cbn [bind] in Eh; try discriminate. destruct (sub _ _ 3); cbn [bind] in Eh; try discriminate.
      destruct (parse_historical _ _) as [[?|?]| |]; cbn [bind] in Eh; try discriminate. apply gives_inj in Eh. congruence. }
    destruct (Z.eqb_spec b 0x80) as [->|N80].
    { destruct (sub _ _ _); cbn [bind] in Eh; try discriminate. 
      destruct (parse_historical _ _) as [[?|?]| |]; cbn [bind] in Eh; try discriminate. apply gives_inj in Eh. congruence. }
    assert (X : (let* hist := sub (atr ++ repeat 0 (33 - length atr)) (S (end_of gs)) (Z.to_nat (t0 mod 16) - 1) in
      gives (b, Some hist, @None (list Z), (S (end_of gs) + (Z.to_nat (t0 mod 16) - 1))%nat)) = gives (i_T1 x, h, st, next)).
    { rewrite <- Eh. clear -N0 N80. destruct b as [|q|q]; [congruence| |reflexivity]. do 8 (destruct q as [q|q|]; try reflexivity). congruence. }
    clear Eh. destruct (sub _ _ _); cbn [bind] in X; try discriminate. apply gives_inj in X. congruence.
Qed.

(** ** Texts written in pieces *)
Lemma snprintf_at pre tl s : tl <> [] -> snprintf (pre ++ tl) (length pre) (length tl) s =
  Ret (pre ++ firstn (length tl - 1) s ++ 0 :: skipn (S (length (firstn (length tl - 1) s))) tl).
Proof.
  intros H. unfold snprintf. destruct (length tl) as [|m] eqn:E; [destruct tl; [congruence|discriminate]|]. cbn [Nat.sub]. rewrite Nat.sub_0_r.
  assert (L : (length (firstn m s) <= m)%nat) by (rewrite firstn_length; lia).
  rewrite put_Ret by (rewrite !app_length; cbn [length]; lia). f_equal.
  rewrite firstn_app, firstn_all, Nat.sub_diag. cbn [firstn]. rewrite app_nil_r. f_equal. rewrite <- app_assoc. cbn [app]. f_equal. f_equal.
  rewrite app_length. cbn [length]. rewrite skipn_app, skipn_all2 by lia. cbn [app]. f_equal. lia.
Qed.
Lemma nz_concat l : Forall nz l -> nz (List.concat l).
Proof. induction 1; cbn [List.concat]; [constructor|apply nz_app; assumption]. Qed.
Lemma write_all_ok pieces : forall pre tl, tl <> [] -> nz pre -> Forall nz pieces ->
  exists ok r new, write_all (pre ++ tl) (length pre) pieces = Ret (ok, r, new) /\ length new = length (pre ++ tl) /\
  ((exists tl', ok = true /\ r = length (pre ++ List.concat pieces) /\ new = (pre ++ List.concat pieces) ++ tl' /\ tl' <> [] /\ (pieces <> [] -> hd 1 tl' = 0)) \/
   (ok = false /\ (length (pre ++ tl) <= r)%nat /\ cstring new = Some (firstn (length (pre ++ tl) - 1) (pre ++ List.concat pieces)))).
Proof.
  induction pieces as [|p pieces IH]; intros pre tl Ht Np Nl; cbn [write_all List.concat].
  - exists true, (length pre), (pre ++ tl). split; [reflexivity|]. split; [reflexivity|]. left. exists tl. rewrite app_nil_r. repeat (split; [auto|]). congruence.
  - inversion Nl as [|? ? Np' Nl']; subst. replace (length (pre ++ tl) - length pre)%nat with (length tl) by (rewrite app_length; lia).
    rewrite snprintf_at by exact Ht. cbn [bind]. set (f := firstn (length tl - 1) p). set (tl2 := 0 :: skipn (S (length f)) tl).
    assert (Ltl : (length tl <> 0)%nat) by (destruct tl; [congruence|discriminate]).
    assert (Lf : length f = Nat.min (length tl - 1) (length p)) by (unfold f; apply firstn_length).
    assert (L2 : length tl2 = (length tl - length f)%nat) by (unfold tl2; cbn [length]; rewrite skipn_length; lia).
    destruct (Nat.leb_spec (length tl) (length p)) as [Lp|Lp].
    + exists false, (length pre + length p)%nat, (pre ++ f ++ tl2). split; [reflexivity|]. split; [rewrite !app_length, L2; lia|]. right. split; [reflexivity|].
      split; [rewrite app_length; lia|]. unfold tl2. rewrite app_assoc. rewrite cstring_app by (apply nz_app; [exact Np|apply nz_firstn; exact Np']).
      f_equal. rewrite app_length, firstn_app. rewrite (firstn_all2 pre) by lia. f_equal. unfold f.
      replace (length pre + length tl - 1 - length pre)%nat with (length tl - 1)%nat by lia. rewrite firstn_app.
      replace (length tl - 1 - length p)%nat with 0%nat by lia. cbn [firstn]. rewrite app_nil_r. reflexivity.
    + assert (Ef : f = p) by (unfold f; apply firstn_all2; lia).
      destruct (IH (pre ++ p) tl2) as (ok & r & new & E & Ln & C); [discriminate|apply nz_app; assumption|exact Nl'|].
      exists ok, r, new. rewrite Ef. rewrite app_assoc. rewrite <- app_length. split; [exact E|].
      split; [rewrite Ln, !app_length, L2, Ef; lia|].
      destruct C as [(tl' & -> & -> & -> & Ht' & Hh)|(-> & Lr & C)].
      * left. exists tl'. rewrite <- !app_assoc in *. repeat (split; [auto|]). intros _. destruct pieces as [|p2 pieces]; [|apply Hh; discriminate].
        cbn [write_all] in E. injection E as _ E. cbn [List.concat] in E. do 2 apply app_inv_head in E. rewrite <- E. reflexivity.
      * right. rewrite !app_length in *. rewrite L2, Ef in *. split; [reflexivity|]. split; [lia|].
        replace (length pre + length p + (length tl - length p) - 1)%nat with (length pre + length tl - 1)%nat in C by lia. rewrite <- app_assoc in C. exact C.
Qed.
Lemma write_all_0 pieces str : str <> [] -> pieces <> [] -> Forall nz pieces ->
  exists ok r new, write_all str 0 pieces = Ret (ok, r, new) /\ shown str new (List.concat pieces) /\
  ((r = length (List.concat pieces) /\ (r < length str)%nat /\ exists tl, new = List.concat pieces ++ tl /\ tl <> []) \/ (length str <= r)%nat /\ (length str <= length (List.concat pieces))%nat).
Proof.
  intros Hs Hp N. destruct (write_all_ok pieces [] str Hs ltac:(constructor) N) as (ok & r & new & E & L & C). cbn [app] in *.
  exists ok, r, new. split; [exact E|]. assert (Nc : nz (List.concat pieces)) by (apply nz_concat; exact N).
  destruct C as [(tl & -> & -> & -> & Ht & Hh)|(-> & Lr & C)].
  - assert (Lt : (length tl <> 0)%nat) by (destruct tl; [congruence|discriminate]). rewrite app_length in L. split.
    + split; [rewrite app_length; exact L|]. specialize (Hh Hp). destruct tl as [|z tl]; [congruence|]. cbn [hd] in Hh. subst z.
      rewrite cstring_app by exact Nc. f_equal. symmetry. apply firstn_all2. lia.
    + left. split; [reflexivity|]. split; [lia|eauto].
  - split; [split; assumption|]. right. split; [exact Lr|].
    destruct (Nat.leb_spec (length str) (length (List.concat pieces))); [assumption|]. exfalso.
    rewrite firstn_all2 in C by lia. clear -E C Lr H N Hs. revert E. 
    assert (G : forall pieces pre tl, tl <> [] -> (length (pre ++ List.concat pieces) < length (pre ++ tl))%nat -> forall r new, write_all (pre ++ tl) (length pre) pieces <> Ret (false, r, new)).
    { clear. induction pieces as [|p pieces IH]; intros pre tl Ht L r new; cbn [write_all]; [discriminate|]. cbn [List.concat] in L. rewrite !app_length in L.
      replace (length (pre ++ tl) - length pre)%nat with (length tl) by (rewrite app_length; lia). rewrite snprintf_at by exact Ht. cbn [bind].
      destruct (Nat.leb_spec (length tl) (length p)); [lia|]. rewrite (firstn_all2 p) by lia.
      rewrite app_assoc, <- app_length. apply IH; [discriminate|]. rewrite !app_length. cbn [length]. rewrite skipn_length. lia. }
    apply (G pieces [] str Hs). exact H.
Qed.
Lemma then_shown str new done s : shown str new done -> nz done -> nz s -> (length done < length str)%nat -> (exists tl, new = done ++ tl /\ tl <> []) ->
  exists new', snprintf new (length done) (length str - length done) s = Ret new' /\ shown str new' (done ++ s).
Proof.
  intros (L & _) Nd Ns Ld (tl & -> & Ht). rewrite app_length in L.
  replace (length str - length done)%nat with (length tl) by lia. rewrite snprintf_at by exact Ht. eexists. split; [reflexivity|].
  assert (Ltl : (length tl <> 0)%nat) by (destruct tl; [congruence|discriminate]).
  split.
  - rewrite !app_length. cbn [length]. rewrite skipn_length, firstn_length. lia.
  - rewrite app_assoc. rewrite cstring_app by (apply nz_app; [exact Nd|apply nz_firstn; exact Ns]). f_equal. rewrite firstn_app. rewrite (firstn_all2 done) by lia. f_equal. f_equal. lia.
Qed.
Lemma tell_shown str s : str <> [] -> nz s -> exists new, tell str s = Ret (true, new) /\ shown str new s.
Proof. intros H N. destruct (snprintf_shown str s H N) as (new & E & S). exists new. unfold tell. rewrite E. auto. Qed.
Definition some_of (l : list (bool * list Z)) : list (list Z) := flat_map (fun x : bool * list Z => if fst x then [snd x] else []) l.
Lemma commas_after sep l : List.concat (with_commas (lit sep) (lit sep) l) = flat_map (fun t => lit sep ++ t) (some_of l).
Proof. induction l as [|([|], s) l IH]; cbn [with_commas some_of flat_map fst snd List.concat app]; [reflexivity|rewrite IH; reflexivity|exact IH]. Qed.
Lemma commas_join sep l : List.concat (with_commas (lit sep) [] l) = join sep (some_of l).
Proof.
  induction l as [|([|], s) l IH]; cbn [with_commas some_of flat_map fst snd List.concat app join]; [reflexivity| |exact IH].
  rewrite commas_after. reflexivity.
Qed.
Lemma commas_nz sep add l : nz sep -> nz add -> Forall (fun x => nz (snd x)) l -> Forall nz (with_commas sep add l).
Proof.
  intros Ns Na H. revert add Na. induction H as [|([|], s) l Hs Hl IH]; intros add Na; cbn [with_commas]; [constructor| |apply IH; exact Na].
  constructor; [apply nz_app; assumption|apply IH; exact Ns].
Qed.
