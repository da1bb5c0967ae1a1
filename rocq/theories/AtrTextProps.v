(** The descriptions of an answer to reset (C113 - C117). *)
From Coq Require Import String.
From Verif Require Import Base BaseLemmas DolSpec StrModel StrSpec AtrModel AtrSpec AtrProofs CapduSpec CapduProofs AtrTextModel AtrTextSpec AtrTextProofs AtrTextTexts.
Open Scope Z_scope.
Open Scope list_scope.

(** An ATR with TA1, TB1, TC1, TD1 (T=1), TA2, TC2, TD2 (T=1), TA3, TB3, TC3, TD3 (T=15), TA4, TB4, two historical bytes and TCK. *)
Definition full_atr : list Z := [0x3B; 0xF2; 0x95; 0x2A; 0x05; 0xD1; 0x91; 0x0B; 0xF1; 0xFE; 0x45; 0x01; 0x3F; 0xC7; 0x80; 0x31; 0xC0; 0xC1].
Definition full_groups : list group :=
  [mkGroup (Some 0x95) (Some 0x2A) (Some 0x05) (Some 0xD1); mkGroup (Some 0x91) None (Some 0x0B) (Some 0xF1);
   mkGroup (Some 0xFE) (Some 0x45) (Some 0x01) (Some 0x3F); mkGroup (Some 0xC7) (Some 0x80) None None].
Definition text_of (m : out (bool * list Z)) : option (list Z) := match m with Ret (true, new) => cstring new | _ => None end.
Definition of_atr {A} (atr : list Z) (f : info -> A) : option A := match atr_parse atr with Ret (inr x) => Some (f x) | _ => None end.
Definition page : list Z := repeat 7 100.
Ltac group_match := unfold matches; cbn; repeat split; intros; congruence.
Example full_layout : layout full_atr 0x3B 0xF2 full_groups [0x31; 0xC0] [0xC1] [].
Proof.
  split; [reflexivity|]. split; [|reflexivity].
  eapply groups_more; [group_match|reflexivity|]. eapply groups_more; [group_match|reflexivity|]. eapply groups_more; [group_match|reflexivity|]. eapply groups_last; [group_match|reflexivity].
Qed.

(** ** C113: T0 and TDi *)
Theorem C113_T0 atr x ts t0 gs g hist tck rest str : bytes atr -> ~ td4 atr -> atr_parse atr = Ret (inr x) -> layout atr ts t0 gs hist tck rest ->
  hd_error gs = Some g -> str <> [] -> exists new, T0_get_string x str = Ret (true, new) /\ shown str new (T0_text t0 g).
Proof. intros B N E L Hg Hs. destruct (layout_facts _ _ _ _ _ _ _ _ B N E L) as (F & _). eapply T0_ok; eauto. Qed.
Theorem C113_TD_partial atr x ts t0 gs hist tck rest i str : bytes atr -> ~ td4 atr -> atr_parse atr = Ret (inr x) -> layout atr ts t0 gs hist tck rest -> (1 <= i)%nat ->
  match byte_of gD i gs with
  | Some t => exists g, nth_error gs i = Some g /\ (str <> [] -> exists new, TDi_get_string x i str = Ret (true, new) /\ shown str new (TD_text (Z.of_nat i) t g))
  | None => TDi_get_string x i str = Ret (false, str)
  end.
Proof.
  intros B N E L Hi. destruct (layout_facts _ _ _ _ _ _ _ _ B N E L) as (F & _ & G & _). pose proof (groups_len _ _ _ _ _ _ _ L N) as Lg.
  destruct (byte_of gD i gs) as [t|] eqn:Et.
  - assert (X : exists g, nth_error gs i = Some g).
    { clear -G Et Hi. destruct i as [|k]; [lia|]. unfold byte_of in Et. cbn [Nat.sub] in Et. rewrite Nat.sub_0_r in Et. clear Hi. revert k Et.
      induction G as [y g M D|y g u gs M D G IH]; intros k Et.
      - destruct k as [|[|k]]; cbn in Et; [congruence| |]; discriminate.
      - destruct k as [|k]; cbn [nth_error] in *; [inversion G; subst; eauto|]. apply IH. exact Et. }
    destruct X as (g & Eg). exists g. split; [exact Eg|]. intros Hs. assert (i < length gs)%nat by (apply nth_error_Some; congruence).
    eapply TD_ok; eauto. lia.
  - destruct (TD_fine _ _ _ _ i str F) as (new & E' & _). rewrite Et in E'. cbn [is_some] in E'. rewrite andb_false_r in E'.
    unfold TDi_get_string in *. destruct ((i <? 1) || (4 <? i))%nat; [reflexivity|]. destruct (f_present _ _ _ _ F i Hi) as (_ & _ & _ & P). rewrite P, Et. reflexivity.
Qed.
Example C113_ex : of_atr full_atr (fun x => (text_of (T0_get_string x page), text_of (TDi_get_string x 1 page), text_of (TDi_get_string x 3 page), TDi_get_string x 4 page)) =
  Some (Some (lit "Y1=TA1,TB1,TC1,TD1; K=2"), Some (lit "Y2=TA2,TC2,TD2; Protocol T=1"), Some (lit "Y4=TA4,TB4; Global (T=15)"), Ret (false, page)).
Proof. vm_compute. reflexivity. Qed.
Example C113_spec_ex : T0_text 0xF2 (nth 0 full_groups (mkGroup None None None None)) = lit "Y1=TA1,TB1,TC1,TD1; K=2" /\
  TD_text 3 0x3F (nth 3 full_groups (mkGroup None None None None)) = lit "Y4=TA4,TB4; Global (T=15)".
Proof. vm_compute. auto. Qed.
(** With TD4 the interface bytes that TD4 indicates are not listed. *)
Theorem C113_TD_refuted : exists atr x ts t0 gs hist tck rest t g, bytes atr /\ atr_parse atr = Ret (inr x) /\ layout atr ts t0 gs hist tck rest /\
  byte_of gD 4 gs = Some t /\ nth_error gs 4 = Some g /\ exists new, TDi_get_string x 4 page = Ret (true, new) /\ ~ shown page new (TD_text 4 t g).
Proof.
  pose (atr := [0x3B; 0x80; 0x80; 0x80; 0x80; 0x10; 0x11]).
  destruct (atr_parse atr) as [[e|x]| |] eqn:E; try (vm_compute in E; discriminate).
  exists atr, x, 0x3B, 0x80, [mkGroup None None None (Some 0x80); mkGroup None None None (Some 0x80); mkGroup None None None (Some 0x80); mkGroup None None None (Some 0x10); mkGroup (Some 0x11) None None None],
    [], [], [], 0x10, (mkGroup (Some 0x11) None None None).
  split; [repeat constructor; unfold is_byte; lia|]. split; [exact E|]. split.
  { split; [reflexivity|]. split; [|reflexivity]. do 4 (eapply groups_more; [group_match|reflexivity|]). eapply groups_last; [group_match|reflexivity]. }
  split; [reflexivity|]. split; [reflexivity|]. vm_compute in E. injection E as <-.
  eexists. split; [vm_compute; reflexivity|]. intros (_ & H). vm_compute in H. discriminate.
Qed.

(** ** C114: TA1 *)
(** Fi, Di and f(max) are those of TA1; the number of cycles is Fi/Di rounded down, and
    the bit rate is not too low. *)
Theorem C114_TA1_partial atr x ts t0 gs hist tck rest Fi Di fm str : bytes atr -> ~ td4 atr -> atr_parse atr = Ret (inr x) -> layout atr ts t0 gs hist tck rest ->
  ta1_values gs Fi Di fm -> str <> [] ->
  exists new c r, TAi_get_string x 1 str = Ret (true, new) /\ shown str new (rate_text Fi Di fm c r) /\
    c * Di <= Fi < (c + 1) * Di /\ r * c <= fm * 100000 < (r + 1) * c /\ fm * 100000 * Di / Fi <= r.
Proof.
  intros B N E L V Hs. destruct (layout_facts _ _ _ _ _ _ _ _ B N E L) as (F & _). destruct (TA1_ok _ _ _ _ str Fi Di fm F V Hs) as (new & E1 & S).
  exists new, (Fi / Di), (fm * 100000 / (Fi / Di)). split; [exact E1|]. split; [exact S|]. destruct V as (V1 & V2). apply table7_fmax in V1. apply table8_range in V2.
  assert (C : 0 < Fi / Di) by (apply Z.div_str_pos; lia).
  split; [pose proof (Z.mul_div_le Fi Di ltac:(lia)); pose proof (Z.mul_succ_div_gt Fi Di ltac:(lia)); nia|].
  split; [pose proof (Z.mul_div_le (fm * 100000) (Fi / Di) ltac:(lia)); pose proof (Z.mul_succ_div_gt (fm * 100000) (Fi / Di) ltac:(lia)); nia|].
  apply Z.div_le_lower_bound; [lia|]. pose proof (Z.mul_div_le (fm * 100000 * Di) Fi ltac:(lia)) as H1. pose proof (Z.mul_div_le Fi Di ltac:(lia)) as H2.
  assert (H0 : 0 <= fm * 100000 * Di / Fi) by (apply Z.div_pos; nia).
  apply (Z.mul_le_mono_pos_r _ _ Di); [lia|]. nia.
Qed.
(** Exact when Di divides Fi. *)
Theorem C114_TA1_exact_partial atr x ts t0 gs hist tck rest Fi Di fm c str : bytes atr -> ~ td4 atr -> atr_parse atr = Ret (inr x) -> layout atr ts t0 gs hist tck rest ->
  ta1_values gs Fi Di fm -> c * Di = Fi -> str <> [] ->
  exists new, TAi_get_string x 1 str = Ret (true, new) /\ shown str new (rate_text Fi Di fm c (fm * 100000 * Di / Fi)).
Proof.
  intros B N E L V Hc Hs. destruct (layout_facts _ _ _ _ _ _ _ _ B N E L) as (F & _). destruct (TA1_ok _ _ _ _ str Fi Di fm F V Hs) as (new & E1 & S).
  exists new. split; [exact E1|]. destruct V as (V1 & V2). apply table7_fmax in V1. apply table8_range in V2.
  rewrite <- Hc in S at 2 3. rewrite Z.div_mul in S by lia. rewrite <- Hc at 2. rewrite Z.div_mul_cancel_r by nia. exact S.
Qed.
Example C114_ex : of_atr full_atr (fun x => text_of (TAi_get_string x 1 page)) = Some (Some (lit "Fi=512; Di=16; 32 cycles/ETU @ max 5.0MHz; max 156250 bit/s")) /\
  ta1_values full_groups 512 16 50 /\ 32 * 16 = 512 /\ 50 * 100000 * 16 / 512 = 156250.
Proof. split; [vm_compute; reflexivity|]. split; [|split; reflexivity]. unfold ta1_values. cbn. auto 20. Qed.
(** TA1 = 14: 46.5 cycles and at most 107526 bit/s. *)
Theorem C114_TA1_refuted : exists atr x ts t0 gs hist tck rest Fi Di fm c r new, bytes atr /\ ~ td4 atr /\ atr_parse atr = Ret (inr x) /\ layout atr ts t0 gs hist tck rest /\
  ta1_values gs Fi Di fm /\ TAi_get_string x 1 page = Ret (true, new) /\ shown page new (rate_text Fi Di fm c r) /\ c * Di <> Fi /\ fm * 100000 * Di / Fi + 1000 < r.
Proof.
  pose (atr := [0x3B; 0x10; 0x14]).
  destruct (atr_parse atr) as [[e|x]| |] eqn:E; try (vm_compute in E; discriminate).
  exists atr, x, 0x3B, 0x10, [mkGroup (Some 0x14) None None None], [], [], [], 372, 8, 50, 46, 108695. vm_compute in E. injection E as <-.
  eexists. split; [repeat constructor; unfold is_byte; lia|]. split.
  { intros (ts & t0 & g1 & g2 & g3 & t1 & t2 & t3 & r & Ea & M & D & _). injection Ea as _ <- _. destruct M as (_ & _ & _ & M). rewrite D in M. destruct M as (M & _). specialize (M ltac:(discriminate)). discriminate. }
  split; [vm_compute; reflexivity|]. split.
  { split; [reflexivity|]. split; [|reflexivity]. eapply groups_last; [group_match|reflexivity]. }
  split; [unfold ta1_values; cbn; auto 20|]. split; [vm_compute; reflexivity|]. split; [vm_compute; auto|]. split; [discriminate|reflexivity].
Qed.

(** ** C115: the other interface bytes *)
Theorem C115_first atr x ts t0 gs hist tck rest str : bytes atr -> ~ td4 atr -> atr_parse atr = Ret (inr x) -> layout atr ts t0 gs hist tck rest -> str <> [] ->
  (exists new, TAi_get_string x 2 str = Ret (true, new) /\ shown str new (TA2_text (byte_of gA 2 gs))) /\
  (exists new, TBi_get_string x 1 str = Ret (true, new) /\ shown str new (TB1_text (byte_of gB 1 gs))) /\
  (exists new, TBi_get_string x 2 str = Ret (true, new) /\ shown str new (TB2_text (byte_of gB 1 gs) (byte_of gB 2 gs))) /\
  (exists new, TCi_get_string x 1 str = Ret (true, new) /\ shown str new (lit "N=" ++ dec (par_N gs) ++ lit "; GT=" ++ dec (guard_time gs))) /\
  (forall Fi Di, is_rate gs Fi Di -> exists new, TCi_get_string x 2 str = Ret (true, new) /\ shown str new (lit "WI=" ++ dec (par_WI gs) ++ lit "; WT=" ++ dec (waiting_time gs Di))).
Proof.
  intros B N E L Hs. destruct (layout_facts _ _ _ _ _ _ _ _ B N E L) as (F & _).
  split; [eapply TA2_text_ok; eauto|]. split; [eapply TB1_text_ok; eauto|]. split; [eapply TB2_text_ok; eauto|]. split; [eapply TC1_text_ok; eauto|].
  intros Fi Di R. eapply TC2_text_ok; eauto.
Qed.
(** TAi, TBi, TCi for i > 2: right when no other group is for the same protocol. *)
Theorem C115_specific_partial atr x ts t0 gs hist tck rest i str Fi Di : bytes atr -> ~ td4 atr -> atr_parse atr = Ret (inr x) -> layout atr ts t0 gs hist tck rest ->
  (3 <= i <= 4)%nat -> let T := prot (dflt (byte_of gD (i - 1) gs) 0) in (T <> 0 -> single T gs) -> is_rate gs Fi Di -> str <> [] ->
  (exists new, TAi_get_string x i str = Ret (true, new) /\ shown str new (TA_text T (byte_of gA i gs))) /\
  ((T = 1 -> forall b, byte_of gB i gs = Some b -> 2 ^ (b / 16) * Di <= 12026) ->
   exists new, TBi_get_string x i str = Ret (true, new) /\ shown str new (TB_text T (byte_of gB i gs) Fi Di)) /\
  (exists new, TCi_get_string x i str = Ret (true, new) /\ shown str new (TC_text T (byte_of gC i gs))).
Proof.
  intros B N E L Hi T Sg R Hs. destruct (layout_facts _ _ _ _ _ _ _ _ B N E L) as (F & _). change T with (indicated i gs) in *.
  split; [eapply TA_text_ok; eauto|]. split; [intros Ov; eapply TB_text_ok; eauto|].
  eapply TC_text_ok; eauto. intros E1. rewrite E1 in Sg. apply Sg. lia.
Qed.
Example C115_ex : of_atr full_atr (fun x => map text_of [TAi_get_string x 2 page; TBi_get_string x 1 page; TBi_get_string x 2 page; TCi_get_string x 1 page; TCi_get_string x 2 page]) =
  Some [Some (lit "Specific mode (immutable); ETU is implicit; protocol T=1"); Some (lit "Vpp is connected; Vpp=10000mV; Ipp=50mA"); Some (lit "Vpp is not connected");
        Some (lit "N=5; GT=17"); Some (lit "WI=11; WT=168960")] /\
  of_atr full_atr (fun x => map text_of [TAi_get_string x 3 page; TBi_get_string x 3 page; TCi_get_string x 3 page; TAi_get_string x 4 page; TBi_get_string x 4 page; TCi_get_string x 4 page]) =
  Some [Some (lit "IFSI=254"); Some (lit "CWT=43; BWT=178571"); Some (lit "Cyclic Redundancy Check (CRC)"); Some (lit "Clock stop: No preference; Class: A (5V), B (3V), C (1.8V)");
        Some (lit "Proprietary usage of SPU"); Some (lit "Unimplemented")].
Proof. vm_compute. auto. Qed.
Example C115_spec_ex : single 1 full_groups /\ single 15 full_groups /\ TB_text 1 (Some 0x45) 512 16 = lit "CWT=43; BWT=178571" /\
  TA_text 15 (Some 0xC7) = lit "Clock stop: No preference; Class: A (5V), B (3V), C (1.8V)".
Proof.
  assert (Q : specific full_groups = [(1, nth 2 full_groups (mkGroup None None None None)); (15, nth 3 full_groups (mkGroup None None None None))]) by reflexivity.
  split; [|split; [|split; vm_compute; reflexivity]]; intros a g1 b g2 c E; rewrite Q in E;
    (destruct a as [|p1 [|p2 a]]; cbn in E; [injection E as E1; destruct b as [|p3 [|? ?]]; cbn in *; try discriminate; try (injection E as ? ?; discriminate)
       | injection E as ? E; destruct b; discriminate | injection E as ? ? E; destruct a; discriminate]).
  all: try congruence.
Qed.
(** Two groups for T=1: TA3 is described with the value of TA4. *)
Theorem C115_specific_refuted : exists atr x ts t0 gs hist tck rest b new, bytes atr /\ ~ td4 atr /\ atr_parse atr = Ret (inr x) /\ layout atr ts t0 gs hist tck rest /\
  byte_of gA 3 gs = Some b /\ TAi_get_string x 3 page = Ret (true, new) /\ ~ shown page new (TA_text 1 (Some b)).
Proof.
  pose (atr := [0x3B; 0x80; 0x81; 0x91; 0x20; 0x11; 0xFE; 0x5F]).
  destruct (atr_parse atr) as [[e|x]| |] eqn:E; try (vm_compute in E; discriminate).
  exists atr, x, 0x3B, 0x80, [mkGroup None None None (Some 0x81); mkGroup None None None (Some 0x91); mkGroup (Some 0x20) None None (Some 0x11); mkGroup (Some 0xFE) None None None], [], [0x5F], [], 0x20.
  vm_compute in E. injection E as <-. eexists. split; [repeat constructor; unfold is_byte; lia|]. split.
  { intros (ts & t0 & g1 & g2 & g3 & t1 & t2 & t3 & r & Ea & M1 & D1 & M2 & D2 & M3 & D3 & T4). injection Ea as _ <- Ea.
    assert (A : forall y g, matches y g -> (Z.testbit y 4 = false -> gA g = None) /\ (Z.testbit y 5 = false -> gB g = None) /\ (Z.testbit y 6 = false -> gC g = None) /\ (Z.testbit y 4 = true -> gA g <> None)).
    { intros y g (Ma & Mb & Mc & _). repeat split; intros Hb; [destruct (gA g)|destruct (gB g)|destruct (gC g)|]; try reflexivity; try (exfalso; destruct Ma, Mb, Mc; rewrite Hb in *; intuition congruence). apply Ma, Hb. }
    destruct (A _ _ M1) as (a1 & b1 & c1 & _). unfold goctets at 1 in Ea. rewrite a1, b1, c1, D1 in Ea by reflexivity. cbn [oct app] in Ea. injection Ea as <- Ea.
    destruct (A _ _ M2) as (a2 & b2 & c2 & _). unfold goctets at 1 in Ea. rewrite a2, b2, c2, D2 in Ea by reflexivity. cbn [oct app] in Ea. injection Ea as <- Ea.
    destruct (A _ _ M3) as (_ & b3 & c3 & a3). unfold goctets at 1 in Ea. rewrite b3, c3, D3 in Ea by reflexivity. specialize (a3 eq_refl). destruct (gA g3) as [z|]; [|congruence]. cbn [oct app] in Ea. injection Ea as <- <- _.
    discriminate. }
  split; [vm_compute; reflexivity|]. split.
  { split; [reflexivity|]. split; [|reflexivity]. do 3 (eapply groups_more; [group_match|reflexivity|]). eapply groups_last; [group_match|reflexivity]. }
  split; [reflexivity|]. split; [vm_compute; reflexivity|]. intros (_ & H). vm_compute in H. discriminate.
Qed.

(** TA1 = 97, TB3 = 95: the block waiting time does not fit 32 bits. *)
Theorem C115_BWT_refuted : exists atr x ts t0 gs hist tck rest b Fi Di new, bytes atr /\ atr_parse atr = Ret (inr x) /\ layout atr ts t0 gs hist tck rest /\ length gs = 3%nat /\
  is_rate gs Fi Di /\ specific gs = [(1, mkGroup None (Some b) None None)] /\ TBi_get_string x 3 page = Ret (true, new) /\ ~ shown page new (TB_text 1 (Some b) Fi Di).
Proof.
  pose (atr := [0x3B; 0x90; 0x97; 0x81; 0x21; 0x95; 0x32]).
  destruct (atr_parse atr) as [[e|x]| |] eqn:E; try (vm_compute in E; discriminate).
  exists atr, x, 0x3B, 0x90, [mkGroup (Some 0x97) None None (Some 0x81); mkGroup None None None (Some 0x21); mkGroup None (Some 0x95) None None], [], [0x32], [], 0x95, 512, 64.
  vm_compute in E. injection E as <-. eexists. split; [repeat constructor; unfold is_byte; lia|].
  split; [vm_compute; reflexivity|]. split.
  { split; [reflexivity|]. split; [|reflexivity]. do 2 (eapply groups_more; [group_match|reflexivity|]). eapply groups_last; [group_match|reflexivity]. }
  split; [reflexivity|]. split; [unfold is_rate; cbn; eauto 20|]. split; [reflexivity|]. split; [vm_compute; reflexivity|]. intros (_ & H). vm_compute in H. discriminate.
Qed.

(** ** C116: every accepted ATR, every i and every buffer *)
Theorem C116_safe atr x i str : bytes atr -> atr_parse atr = Ret (inr x) ->
  let well ok (m : out (bool * list Z)) := exists new, m = Ret (ok, new) /\ length new = length str /\ (ok = true -> str <> [] -> exists s, cstring new = Some s) in
  let inside := ((1 <=? i) && (i <=? 4))%nat in
  well true (T0_get_string x str) /\ well inside (TAi_get_string x i str) /\ well inside (TBi_get_string x i str) /\ well inside (TCi_get_string x i str) /\
  exists o, deref t_D i x = Ret o /\ well (inside && match o with Some _ => true | None => false end)%bool (TDi_get_string x i str).
Proof.
  intros B E. destruct (atr_facts atr x B E) as (ts & t0 & gs & tl & r & F & _). cbn zeta.
  split; [apply T0_fine|]. split; [eapply TA_fine; eauto|]. split; [eapply TB_fine; eauto|]. split; [eapply TC_fine; eauto|].
  destruct i as [|i]; [|exists (byte_of gD (S i) gs); split; [apply (f_deref _ _ _ _ F); lia|apply (TD_fine _ _ _ _ _ _ F)]].
  assert (Q : exists o, deref t_D 0 x = Ret o).
  { exists (byte_of gD 1 gs). destruct (f_deref _ _ _ _ F 1%nat ltac:(lia)) as (_ & _ & _ & D). exact D. }
  destruct Q as (o & Eo). exists o. split; [exact Eo|]. apply none_fine.
Qed.
Example C116_ex : of_atr full_atr (fun x => (TAi_get_string x 1 [9; 9; 9; 9], T0_get_string x [9; 9; 9], TDi_get_string x 2 [9], TBi_get_string x 5 [9], TCi_get_string x 0 [9], TAi_get_string x 4 [])) =
  Some (Ret (true, lit "Fi=" ++ [0]), Ret (true, lit "Y1" ++ [0]), Ret (true, [0]), Ret (false, [9]), Ret (false, [9]), Ret (true, [])).
Proof. vm_compute. reflexivity. Qed.

(** ** C117: TS and T1 *)
Theorem C117_TS_T1_partial atr x ts t0 gs hist tck rest : bytes atr -> ~ td4 atr -> atr_parse atr = Ret (inr x) -> layout atr ts t0 gs hist tck rest ->
  TS_get_string x = lit (if ts =? 0x3B then "Direct convention" else "Inverse convention") /\ (ts = 0x3B \/ ts = 0x3F) /\
  T1_get_string x = match hist with [] => None | b :: _ => Some (category_text b) end.
Proof.
  intros B N E L. destruct (layout_facts _ _ _ _ _ _ _ _ B N E L) as (F & T & _ & Lh). split; [|split].
  - unfold TS_get_string. rewrite (f_TS _ _ _ _ F). destruct (f_ts _ _ _ _ F) as [-> | ->]; reflexivity.
  - apply (f_ts _ _ _ _ F).
  - destruct L as (Ea & _). rewrite Ea in B. apply Forall_inv_tail, Forall_inv_tail, bytes_app in B as (_ & B). apply bytes_app in B as (B & _). eapply T1_ok; eauto.
Qed.
(** TS is right for every accepted ATR. *)
Theorem C117_TS atr x : bytes atr -> atr_parse atr = Ret (inr x) ->
  exists tl, (atr = 0x3B :: tl /\ TS_get_string x = lit "Direct convention") \/ (atr = 0x3F :: tl /\ TS_get_string x = lit "Inverse convention").
Proof.
  intros B E. destruct (atr_facts atr x B E) as (ts & t0 & gs & tl & r & F & Ea & _). exists (t0 :: tl). unfold TS_get_string. rewrite (f_TS _ _ _ _ F).
  destruct (f_ts _ _ _ _ F) as [-> | ->]; [left|right]; auto.
Qed.
Example C117_ex : of_atr full_atr (fun x => (TS_get_string x, T1_get_string x)) = Some (lit "Direct convention", Some (lit "Proprietary")) /\
  of_atr [0x3F; 0x00] (fun x => (TS_get_string x, T1_get_string x)) = Some (lit "Inverse convention", None) /\
  of_atr [0x3B; 0x03; 0x80; 0x81; 0x05] (fun x => T1_get_string x) = Some (Some (lit "COMPACT-TLV including optional status indicator")).
Proof. vm_compute. auto. Qed.
(** With TD4, TD4 is taken for the category indicator. *)
Theorem C117_T1_refuted : exists atr x ts t0 gs b hist tck rest, bytes atr /\ atr_parse atr = Ret (inr x) /\ layout atr ts t0 gs (b :: hist) tck rest /\
  T1_get_string x <> Some (category_text b).
Proof.
  pose (atr := [0x3B; 0x81; 0x80; 0x80; 0x80; 0x10; 0x11; 0x80]).
  destruct (atr_parse atr) as [[e|x]| |] eqn:E; try (vm_compute in E; discriminate).
  exists atr, x, 0x3B, 0x81, [mkGroup None None None (Some 0x80); mkGroup None None None (Some 0x80); mkGroup None None None (Some 0x80); mkGroup None None None (Some 0x10); mkGroup (Some 0x11) None None None],
    0x80, [], [], [].
  split; [repeat constructor; unfold is_byte; lia|]. split; [exact E|]. split.
  { split; [reflexivity|]. split; [|reflexivity]. do 4 (eapply groups_more; [group_match|reflexivity|]). eapply groups_last; [group_match|reflexivity]. }
  vm_compute in E. injection E as <-. vm_compute. discriminate.
Qed.

Print Assumptions C113_T0. Print Assumptions C113_TD_partial. Print Assumptions C113_TD_refuted. Print Assumptions C114_TA1_partial. Print Assumptions C114_TA1_exact_partial. Print Assumptions C114_TA1_refuted.
Print Assumptions C115_first. Print Assumptions C115_specific_partial. Print Assumptions C115_specific_refuted. Print Assumptions C115_BWT_refuted. Print Assumptions C116_safe. Print Assumptions C117_TS_T1_partial. Print Assumptions C117_TS. Print Assumptions C117_T1_refuted.
