(** From the command line of emv-tool to the commands of the card. *)
From Coq Require Import String Permutation.
From Verif Require Import Base BaseLemmas BerModel BerSpec TlvListModel TlvSpec TlvProofs StrModel StrSpec FlagsSpec ToolsModel ToolsSpec ToolsProofs ToolsProps DolModel DolSpec DolProofs AppModel AppSpec AppProps BerProofs
  TtlModel TtlSpec TtlProofs AtrModel FlagsTexts PcscModel TalModel TalSpec TalProofs TalWire TalProps EmvModel EmvSpec EmvProofs EmvWire EmvProps TermModel TermSpec TermProofs TermSession TermProps TellSpec.
Open Scope string_scope.
Open Scope Z_scope.
Open Scope list_scope.
Notation length := List.length.

(** ** The octets of an entry *)
Lemma decval_app a b : decval (a ++ b) = decval a * 100 ^ Zlen b + decval b.
Proof.
  induction a as [|x a IH]; [reflexivity|]. cbn [app]. rewrite !dec_cons, IH. unfold Zlen. rewrite app_length, Nat2Z.inj_add, Z.pow_add_r by lia. ring.
Qed.
Lemma decval_zeros k : decval (repeat 0 k) = 0.
Proof. induction k as [|k IH]; [reflexivity|]. cbn [repeat]. rewrite dec_cons, IH. reflexivity. Qed.
Lemma bcd_zeros k : bcd (repeat 0 k).
Proof. induction k; constructor; [unfold is_byte; vm_compute; intuition discriminate|assumption]. Qed.
Lemma held fs rest tag v f : holds fs tag v -> in_sources (fs :: rest) tag f -> f_val f = v.
Proof.
  intros (a & g & b & -> & Tg & Vg & _ & _ & N) (before & src & after & pre & post & E & Fb & -> & Fp & Tf).
  destruct before as [|s0 before]; cbn [app] in E.
  - injection E as E _. destruct (Nat.lt_trichotomy (length a) (length pre)) as [L|[L|L]].
    + exfalso. assert (X : nth_error (a ++ g :: b) (length a) = Some g) by (rewrite nth_error_app2, Nat.sub_diag by lia; reflexivity).
      rewrite E, nth_error_app1 in X by lia. apply nth_error_In in X. rewrite Forall_forall in Fp. exact (Fp _ X Tg).
    + assert (X : nth_error (a ++ g :: b) (length a) = Some g) by (rewrite nth_error_app2, Nat.sub_diag by lia; reflexivity).
      rewrite E, L, nth_error_app2, Nat.sub_diag in X by lia. injection X as ->. exact Vg.
    + exfalso. assert (X : nth_error (pre ++ f :: post) (length pre) = Some f) by (rewrite nth_error_app2, Nat.sub_diag by lia; reflexivity).
      rewrite <- E, nth_error_app1 in X by lia. apply nth_error_In in X. apply N. rewrite map_app. apply in_or_app. left. rewrite <- Tf. apply in_map, X.
  - injection E as <- E. exfalso. inversion Fb as [|? ? F _]; subst. rewrite Forall_forall in F. apply (F g); [|reflexivity]. apply in_or_app. right. left. reflexivity.
Qed.
Lemma given_exact fs rest tag v n w : holds fs tag v -> entry_data (fs :: rest) (tag, n) w -> Zlen v = n -> w = v.
Proof.
  intros H E L. inversion E as [? ? F|? ? f I L'|? ? f a b I M S N L'|? ? f a b I M S N L'|? ? f k I M K L'|? ? f k I M K L']; subst.
  - exfalso. destruct H as (a & g & b & -> & Tg & _). inversion F as [|? ? F0 _]; subst. rewrite Forall_forall in F0. apply (F0 g); [|reflexivity]. apply in_or_app. right. left. reflexivity.
  - exact (held _ _ _ _ _ H I).
  - exfalso. rewrite (held _ _ _ _ _ H I) in S. subst v. destruct a; [contradiction|]. unfold Zlen in L'. cbn [app length] in L'. rewrite app_length in L'. lia.
  - exfalso. rewrite (held _ _ _ _ _ H I) in S. subst v. destruct b; [contradiction|]. unfold Zlen in L'. rewrite app_length in L'. cbn [length] in L'. lia.
  - exfalso. rewrite (held _ _ _ _ _ H I) in L'. lia.
  - exfalso. rewrite (held _ _ _ _ _ H I) in L'. lia.
Qed.
Lemma given_numeric fs rest tag v n w value : In tag numeric_tags -> holds fs tag v -> bcd v -> decval v = value -> entry_data (fs :: rest) (tag, n) w -> bcd w /\ decval w = value mod 100 ^ n.
Proof.
  intros T H B D E. pose proof (dec_range v B) as R. inversion E as [? ? F|? ? f I L'|? ? f a b I M S N L'|? ? f a b I M S N L'|? ? f k I M K L'|? ? f k I M K L']; subst; try contradiction.
  - exfalso. destruct H as (a & g & b & -> & Tg & _). inversion F as [|? ? F0 _]; subst. rewrite Forall_forall in F0. apply (F0 g); [|reflexivity]. apply in_or_app. right. left. reflexivity.
  - rewrite (held _ _ _ _ _ H I). split; [exact B|]. rewrite Z.mod_small by exact R. reflexivity.
  - rewrite (held _ _ _ _ _ H I) in S. subst v. apply Forall_app in B as [_ B]. split; [exact B|]. pose proof (dec_range w B) as R'. rewrite decval_app, Z.add_comm, Z_mod_plus_full, Z.mod_small by exact R'. reflexivity.
  - rewrite (held _ _ _ _ _ H I) in *. split; [apply Forall_app; split; [apply bcd_zeros|exact B]|]. rewrite decval_app, decval_zeros, Z.mul_0_l, Z.add_0_l. symmetry. apply Z.mod_small.
    split; [lia|]. eapply Z.lt_le_trans; [apply R|]. apply Z.pow_le_mono_r; lia.
Qed.
Lemma entry_length sources e w : 0 <= snd e -> entry_data sources e w -> Zlen w = snd e.
Proof.
  intros P E. inversion E; subst; cbn [snd] in *; try assumption; unfold Zlen in *; rewrite ?app_length, ?repeat_length; lia.
Qed.
Lemma all_told type amount other t params config term e w : snd e >= 0 ->
  (exists buf, length buf = 6%nat /\ load_params buf t 42 type amount other = Ret params) -> calendar t -> is_byte type -> 0 <= amount < 4294967296 -> 0 <= other < 4294967296 ->
  entry_data [params; config; term] e w -> told type amount other t e w.
Proof.
  intros Se (buf & Lb & Ep) Ct Bt A O E. destruct (load_params_holds buf t 42 type amount other Lb Ct ltac:(lia) Bt A O) as (fs & Ef & _ & H9C & H5F & _ & _ & (y & m & d & HA & I1 & I2 & I3) & (h & m' & s & HT & J1 & J2 & J3) &
    (v1 & A1 & B1) & (v2 & A2 & B2) & (v3 & A3 & B3) & (v4 & A4 & B4)). rewrite Ep in Ef. injection Ef as <-. destruct e as [tag n]. cbn [snd] in Se. unfold told.
  split; [apply (entry_length _ (tag, n) _ ltac:(cbn [snd]; lia) E)|].
  split; [intros ->; destruct B1 as (_ & B1 & D1); eapply given_numeric; [|exact A1|exact B1|exact D1|exact E]; cbn; tauto|].
  split; [intros ->; destruct B3 as (_ & B3 & D3); eapply given_numeric; [|exact A3|exact B3|exact D3|exact E]; cbn; tauto|].
  split; [intros -> ->; destruct B2 as (L2 & _ & D2); rewrite (given_exact _ _ _ _ _ _ A2 E ltac:(unfold Zlen; lia)); exact D2|].
  split; [intros -> ->; destruct B4 as (L4 & _ & D4); rewrite (given_exact _ _ _ _ _ _ A4 E ltac:(unfold Zlen; lia)); exact D4|].
  split; [intros -> ->; exact (given_exact _ _ _ _ _ _ H9C E eq_refl)|].
  split; [intros -> ->; exists y, m, d; rewrite (given_exact _ _ _ _ _ _ HA E eq_refl); auto|].
  split; [intros -> ->; exists h, m', s; rewrite (given_exact _ _ _ _ _ _ HT E eq_refl); auto|].
  intros -> ->; exact (given_exact _ _ _ _ _ _ H5F E eq_refl).
Qed.

(** ** The command that was accepted *)
Section Told.
Context {S : Type} (tfuel : nat) (card : cardfn S) (tjunk junk buf : list Z) (Rb : respects_buffer card) (Hb : forall s tx, bytes (snd (snd (card s tx)))) (Bj : bytes tjunk)
  (Lj : length junk = 17%nat) (Lb : length buf = 255%nat).
Notation tr := (ttl_transport tfuel (logged card) ModeApdu tjunk).
Definition data_sent (d : option (list Z)) : list Z := match d with Some d => d | None => [0x83; 0x00] end.
(** The fields are those of the file control information with which the card answered the selection of [aid]. *)
Definition fci_of (aid : list Z) (fields : list field) : Prop :=
  exists s0 n t ts, x_select tr s0 aid = Ret n /\ n_ret n = 0 /\ n_sw n = 0x9000 /\ piece (n_data n) t /\ b_tag t = 0x6F /\ forest false (b_val t) ts /\ fields = flat_map leaves ts.
Definition accepted (params : list field) (c : ctx) (log : list (list Z)) : Prop :=
  exists aid fields d gpo before more after, k_icc c = fields ++ gpo /\ fci_of aid fields /\ gpo_command_data [params; tool_config; terminal_data 0x05 aid] fields d /\
    log = before ++ (select_cmd 0 aid :: more) ++ gpo_command (data_sent d) :: after /\ Forall (follow_up (select_cmd 0 aid)) more.
Lemma select_sent st name a : bytes name -> 5 <= Zlen name <= 16 -> x_select tr st name = Ret a ->
  exists more, snd (n_st a) = snd st ++ select_cmd 0 name :: more /\ Forall (follow_up (select_cmd 0 name)) more.
Proof.
  intros Hn L E. apply of_tres_inv in E as (t & E & ->). destruct st as [s log]. cbn [snd].
  unfold ttl_select, ttl_select_gen in E. pose proof outb_len as Ol.
  destruct (Nat.eqb_spec (length (repeat 0 (Z.to_nat RAPDU_DATA_MAX))) 0) as [e|_]; [unfold Zlen in Ol; lia|].
  destruct (Z.ltb_spec (Zlen (repeat 0 (Z.to_nat RAPDU_DATA_MAX))) RAPDU_DATA_MAX) as [e|_]; [unfold RAPDU_DATA_MAX in *; lia|].
  destruct ((Zlen name <? 5) || (16 <? Zlen name))%bool eqn:E1; [lia|].
  rewrite u8_id in E by lia. apply bind_Ret_inv in E as (t0 & Et & E). apply finish_card in E. rewrite E.
  refine (trx_log tfuel card ModeApdu s log _ _ _ _ _ Et _ _); [rewrite repeat_length; unfold RAPDU_MAX; lia|].
  exists A4S. split; [auto|]. split.
  - apply (cmd_4s [0; 164; 4; 0] name 0); auto. lia.
  - repeat apply bytes_cons; unfold is_byte in *; try lia. apply bytes_app_intro; auto. apply bytes_one. unfold is_byte; lia.
Qed.
Lemma selected s c apps k a b apps' c' s' : nth_error apps k = Some a -> usable a -> select_application tr junk s c apps k = Ret (0, apps', c', s') -> k_app c' = Some (b, InApp) ->
  fci_of (f_val (a_aid a)) (a_tlvs b) /\ exists more, snd s' = snd s ++ select_cmd 0 (f_val (a_aid a)) :: more /\ Forall (follow_up (select_cmd 0 (f_val (a_aid a)))) more.
Proof.
  intros Na Ua E Ek. pose proof (tr_wf tfuel card tjunk Rb Hb Bj) as W. destruct (nth_error_split apps k Na) as (pre & post & -> & <-).
  pose proof (select_application_spec tr W junk Lj s c pre a post (proj1 Ua)) as K. rewrite E in K. destruct K as (_ & _ & K).
  assert (N0 : ~ try_next (pre ++ post) 0) by (intro N; inversion N).
  destruct K as [(_ & _ & _ & K)|(_ & r & sel & Es & [(T0 & _ & b' & -> & Ek' & Ev)|[(_ & K & _)|[(_ & _ & K & _)|(_ & K & _)]]])];
    [destruct (N0 K)| |discriminate K|discriminate K|destruct (N0 K)].
  rewrite Ek in Ek'. injection Ek' as <-. subst r. pose proof (select_app_spec tr W junk Lj s (f_val (a_aid a)) ltac:(apply Ua)) as Q. rewrite Es in Q.
  destruct Q as [(_ & _ & Q & _)|(Rg & n & En & -> & [(_ & _ & Q)|[(_ & _ & _ & Q)|[(_ & _ & _ & _ & Q)|(R0 & Sw & ap & Ec & [(_ & _ & Q)|(_ & _ & Q)])]]])]; try discriminate Q.
  injection Q as <-. pose proof W as (W1 & _). specialize (W1 s (f_val (a_aid a)) ltac:(apply Ua)). rewrite En in W1. destruct (W1 R0) as [Bn Ln].
  assert (Nn : n_data n <> []) by (intro Nn; rewrite Nn in Ec; discriminate Ec).
  destruct (C63_create_from_fci junk (n_data n) Lj Bn ltac:(unfold small; lia) Nn) as [(a' & t & ts & Ea & P & T & F & Et & _)|(Ea & _)]; rewrite Ec in Ea; [|discriminate Ea].
  injection Ea as <-. split; [exists s, n, t, ts; auto 10|]. eapply select_sent; [apply Ua|exact Rg|exact En].
Qed.
Lemma loop_told fuel : forall s log c apps required i ev apps' c' s' log' i', Forall usable apps -> fields_ok (k_params c) -> k_config c = tool_config ->
  select_loop tr junk buf fuel (s, log) c apps required i = Ret (true, ev, apps', c', (s', log'), i') -> accepted (k_params c) c' log'.
Proof.
  induction fuel as [|fuel IH]; intros s log c apps required i ev apps' c' s' log' i' U Fp Fc E; [discriminate|]. cbn [select_loop] in E.
  apply bind_Ret_inv in E as ([[first choice] i1] & _ & E).
  assert (Ag : forall ev0 s1 log1 c1 apps1 i1, same_setup c c1 -> Forall usable apps1 ->
    (let* (b, ev', apps, c, s, i) := select_loop tr junk buf fuel (s1, log1) c1 apps1 required i1 in Ret (b, ev0 ++ ev', apps, c, s, i)) = Ret (true, ev, apps', c', (s', log'), i') ->
    accepted (k_params c) c' log').
  { intros ev0 s1 log1 c1 apps1 i2 (_ & S2 & _ & S4) Sub Q. apply bind_Ret_inv in Q as ([[[[[ok2 ev2] apps2] c2] [s2 log2]] i3] & Q & R).
    apply inv_ret in R. injection R as -> <- -> -> -> -> ->. rewrite <- S4. eapply IH; [exact Sub|rewrite S4; exact Fp|congruence|exact Q]. }
  destruct choice as [index|]; [|eapply Ag in E; [exact E|repeat split|exact U]].
  apply bind_Ret_inv in E as ([[[r apps1] c1] [s1 log1]] & Es & E).
  assert (Fc' : fields_ok (k_config c)) by (rewrite Fc; apply config_ok).
  pose proof (step tr (tr_wf tfuel card tjunk Rb Hb Bj) junk Lj buf Lb apps (s, log) c index U Fp Fc') as K. rewrite Es in K. destruct K as (Sc & U1 & K1 & K2 & _).
  destruct (Z.ltb_spec r 0) as [R|R]; [discriminate E|].
  destruct (Z.ltb_spec 0 r) as [R'|R']; [destruct (r =? TRY_AGAIN); [eapply Ag; eauto|discriminate E]|].
  assert (r = 0) by lia. subst r. destruct (Nat.ltb_spec index (length apps)) as [L|L]; [|destruct (K2 L); lia].
  destruct (K1 L) as (a & Na & _ & Kb). destruct (Kb eq_refl) as (b & Ek & Ub & Ev).
  assert (Ua : usable a) by (rewrite Forall_forall in U; apply U; eapply nth_error_In; exact Na). pose proof (selected _ _ _ _ _ _ _ _ _ Na Ua Es Ek) as (Fci & more0 & Lg & Fm0).
  cbn [snd] in Lg. rewrite Ek in E. cbv zeta in E. pose proof Sc as (S1 & S2 & S3 & S4).
  apply bind_Ret_inv in E as ([[r c2] [s2 log2]] & Ei & E).
  pose proof (start tr (tr_wf tfuel card tjunk Rb Hb Bj) junk Lj buf Lb (s1, log1) c1 b 5 ltac:(unfold is_byte; lia) ltac:(rewrite S4; exact Fp) ltac:(rewrite S2; exact Fc') Ek Ub) as Q. rewrite Ei in Q.
  destruct Q as ((Q1 & Q2 & Q3 & Q4) & Q5). assert (Sc2 : same_setup c c2) by (repeat split; congruence).
  destruct (Z.ltb_spec r 0) as [Z1|Z1]; [discriminate E|]. destruct (Z.ltb_spec 0 r) as [Z2|Z2]; [destruct (_ && _)%bool; [eapply Ag; eauto|discriminate E]|].
  apply inv_ret in E; injection E as <- <- <- <- <- <-. assert (r = 0) by lia. subst r. destruct (Q5 eq_refl) as (gpo & f & g & Eic & _).
  apply (initiate_wire tfuel card tjunk) with (a := b) in Ei; auto; try (unfold is_byte; lia); try (rewrite S4; exact Fp); try (rewrite S2; exact Fc'); try apply Ub.
  destruct Ei as [(_ & X)|(d & more & Gd & Q)]; [discriminate X|]. cbv zeta in Q. destruct Q as (-> & Fm). rewrite Lg.
  exists (f_val (a_aid a)), (a_tlvs b), d, gpo, log, more0, more. split; [exact Eic|]. split; [exact Fci|]. rewrite S4, S2, Fc, Ev in Gd. split; [exact Gd|]. split; [rewrite <- app_assoc; reflexivity|exact Fm0].
Qed.
Lemma session_told fuel rounds s log t o i ev c s' log' : calendar t -> is_byte (o_type o) -> 0 <= o_amount o < 4294967296 -> 0 <= o_other o < 4294967296 ->
  session tr junk buf fuel rounds (s, log) t o i = Ret (ev, c, (s', log')) -> In icc_line ev ->
  exists params aid fields rest d before more after, load_params (firstn 6 buf) t 42 (o_type o) (o_amount o) (o_other o) = Ret params /\
    (exists pre term, ev = pre ++ [icc_line; Fields (fields ++ rest); Say (PrintModel.newline ++ lit "Terminal data" ++ PrintModel.newline); Fields term]) /\
    fci_of aid fields /\ gpo_command_data [params; tool_config; terminal_data 0x05 aid] fields d /\
    log' = before ++ (select_cmd 0 aid :: more) ++ gpo_command (data_sent d) :: after /\ Forall (follow_up (select_cmd 0 aid)) more.
Proof.
  intros Ct Bt A O E I0. pose proof (session_spec tr (tr_wf tfuel card tjunk Rb Hb Bj) junk Lj buf Lb fuel rounds (s, log) t o i Ct Bt A O) as K. rewrite E in K.
  destruct K as (params & Ep & _ & _ & _ & K). destruct (K I0) as (pre & apps0 & [s0 log0] & c1 & [s2 log2] & fs & Ev & Eb & Iu & Er & Ek & _ & _ & _ & ev2 & apps2 & i2 & El).
  destruct (params_ok (firstn 6 buf) t 42 (o_type o) (o_amount o) (o_other o)) as (params' & Ep' & Fp); [rewrite firstn_length; lia|exact Ct|lia|exact Bt|exact A|exact O|].
  rewrite Ep in Ep'. injection Ep' as <-. set (c0 := mkCtx true tool_config tool_aids params None [] []) in *.
  pose proof (build_usable tr (tr_wf tfuel card tjunk Rb Hb Bj) junk Lj fuel (s, log) c0 aids_wf) as U. rewrite Eb in U.
  destruct (loop_told rounds s0 log0 c0 apps0 _ i ev2 apps2 c1 s2 log2 i2 U Fp eq_refl El) as (aid & fields & d & gpo & before & more & after & Eic & Fci & Gd & Il & Fm). cbn [k_params c0] in Gd.
  apply (read_data_wire tfuel card tjunk) in Er; [|exact (icc_wf _ _ Iu)]. destruct Er as (g & -> & _).
  exists params, aid, fields, (gpo ++ fs), d, before, more, (after ++ g). split; [exact Ep|]. split; [exists pre, (k_term c); rewrite Ev, Ek, Eic, <- app_assoc; reflexivity|].
  split; [exact Fci|]. split; [exact Gd|]. split; [|exact Fm]. rewrite Il, <- !app_assoc. reflexivity.
Qed.
End Told.

(** ** C156: what was typed is what the card is told *)
Local Ltac said := let E := fresh in intros E; apply (f_equal (fun e => match e with Say x => x | Fields _ => [] end)) in E; vm_compute in E; discriminate E.
Theorem C156_told : forall S tfuel (card : cardfn S) tjunk junk buf, respects_buffer card -> (forall s tx, bytes (snd (snd (card s tx)))) -> bytes tjunk ->
  length junk = 17%nat -> length buf = 255%nat -> forall fuel rounds s log t type1 type2 amount other p i err ev s' log',
  calendar t -> 0 <= type1 <= 9 -> 0 <= type2 <= 9 -> digits amount -> digits other -> amount <> [] -> other <> [] -> number amount < 4294967296 -> number other < 4294967296 ->
  tool (ttl_transport tfuel (logged card) ModeApdu tjunk) junk buf fuel rounds (s, log) t [TxnType (chars [type1; type2]); TxnAmount (chars amount); TxnAmountOther (chars other)] p i =
    (err, Ret (ev, (s', log'))) ->
  In (Say ([10] ++ lit "ICC data:" ++ [10])) ev ->
  exists aid fields rest data pre term before more after,
    ev = pre ++ [Say ([10] ++ lit "ICC data:" ++ [10]); Fields (fields ++ rest); Say ([10] ++ lit "Terminal data" ++ [10]); Fields term] /\
    fci_of tfuel card tjunk aid fields /\
    log' = before ++ (select_cmd 0 aid :: more) ++ gpo_command data :: after /\ Forall (follow_up (select_cmd 0 aid)) more /\
    ((absent 0x9F38 fields /\ data = [0x83; 0x00]) \/
     (exists f entries values, first_with 0x9F38 fields f /\ dol (f_val f) entries /\ Forall2 (told (type1 * 16 + type2) (number amount) (number other) t) entries values /\
        data = 0x83 :: ber_length (Zlen (List.concat values)) ++ List.concat values)).
Proof.
  intros S tfuel card tjunk junk buf Rb Hb Bj Lj Lb fuel rounds s log t d e ds1 ds2 p i err ev s' log' Ct D E D1 D2 N1 N2 L1 L2 Et I0.
  unfold tool in Et. cbn [parse_options] in Et. rewrite (C129_type _ d e D E) in Et. rewrite (proj1 (C129_amount _ ds1 D1 N1)) in Et.
  destruct (Z.leb_spec (number ds1) 0xFFFFFFFF); [|lia]. rewrite (proj2 (C129_amount _ ds2 D2 N2)) in Et. destruct (Z.leb_spec (number ds2) 0xFFFFFFFF); [|lia].
  cbn [o_type o_amount o_other o_verbose o_sources o_level] in Et. match type of Et with (amount_checks ?oo, _) = _ => set (o := oo) in * end. apply (f_equal snd) in Et. cbn [snd] in Et. change (In icc_line ev) in I0.
  set (ev0 := [Say (PrintModel.newline ++ lit "Present card" ++ PrintModel.newline)]) in *.
  assert (N0 : ~ In icc_line ev0) by (unfold ev0, icc_line; intros [Q|[]]; revert Q; said).
  assert (Nx : forall l e, ~ In icc_line l -> e <> icc_line -> ~ In icc_line (l ++ [e])) by (intros l e0 A0 B0 Q; apply in_app_or in Q; destruct Q as [Q|[Q|[]]]; [exact (A0 Q)|exact (B0 Q)]).
  assert (N3 : ~ In icc_line (ev0 ++ [line "Card activated"])) by (apply Nx; [exact N0|unfold line, icc_line; said]).
  assert (Fin : forall l e s1, ~ In icc_line l -> e <> icc_line -> Ret (l ++ [e], s1) = Ret (ev, (s', log')) -> False) by (intros l e0 s1 A0 B0 Q; injection Q as <- _; exact (Nx _ _ A0 B0 I0)).
  cbv zeta in Et. set (ev1 := ev0 ++ [line "Card activated"]) in *. clearbody ev1. clearbody ev0.
  destruct (p_wait p <? 0); [exfalso; refine (Fin _ _ _ N0 _ Et); unfold line, icc_line; said|].
  destruct (0 <? p_wait p); [exfalso; refine (Fin _ _ _ N0 _ Et); unfold line, icc_line; said|].
  destruct (p_connect p <? 0); [exfalso; refine (Fin _ _ _ N0 _ Et); unfold line, icc_line; said|].
  destruct (p_connect p =? TYPE_CONTACT); [|destruct (_ =? _); exfalso; refine (Fin _ _ _ N3 _ Et); unfold line, icc_line; said].
  destruct (p_atr p) as [atr|]; [|exfalso; refine (Fin _ _ _ N3 _ Et); unfold line, icc_line; said].
  apply bind_Ret_inv in Et as (r & _ & Et). destruct (negb (r =? 0)); [exfalso; refine (Fin _ _ _ N3 _ Et); apply icc_report|].
  apply bind_Ret_inv in Et as ([[ev' c] [s1 log1]] & Es & Et). apply inv_ret in Et. injection Et as <- <- <-.
  apply in_app_or in I0. destruct I0 as [I0|I0]; [destruct (N3 I0)|].
  assert (Bo : is_byte (o_type o)) by (cbn [o_type o]; unfold is_byte; lia).
  assert (Ao : 0 <= o_amount o < 4294967296) by (split; [apply number_nonneg; assumption|exact L1]).
  assert (Oo : 0 <= o_other o < 4294967296) by (split; [apply number_nonneg; assumption|exact L2]).
  destruct (session_told tfuel card tjunk junk buf Rb Hb Bj Lj Lb fuel rounds s log t o i ev' c s1 log1 Ct Bo Ao Oo Es I0) as (params & aid & fields & rest & dd & before & more & after & Ep & (pre & term & ->) & Fci & Gd & -> & Fm).
  exists aid, fields, rest, (data_sent dd), (ev1 ++ pre), term, before, more, after. split; [rewrite <- app_assoc; reflexivity|]. split; [exact Fci|]. split; [reflexivity|]. split; [exact Fm|].
  inversion Gd as [Ab|f es vs F Dl _ Fv _]; subst dd; [left; split; [exact Ab|reflexivity]|right]. exists f, es, vs. split; [exact F|]. split; [exact Dl|]. split; [|reflexivity].
  assert (Ge : Forall (fun e => snd e >= 0) es) by (clear -Dl; induction Dl as [|id n rest es I B Dl IH]; constructor; [cbn [snd]; unfold is_byte in B; lia|exact IH]).
  clear F Dl Gd Es Fin. revert Ge. induction Fv as [|x v es vs Hx Fv IH]; intros Ge; constructor.
  - inversion Ge; subst. eapply all_told; [assumption| |exact Ct|exact Bo|exact Ao|exact Oo|exact Hx]. exists (firstn 6 buf). split; [rewrite firstn_length; lia|exact Ep].
  - inversion Ge; subst. apply IH. assumption.
Qed.
Print Assumptions C156_told.
(** 12.34 is what the card is asked to process, as its list of data objects (9F02, six octets) wants it. *)
Example C156_ex :
  match tool ex_tr zeros17 gbuf 30 5 (t_script, []) t_time [TxnType (chars [0; 9]); TxnAmount (chars [1; 2; 3; 4]); TxnAmountOther (chars [5])] t_card [] with
  | ([], Ret (ev, (_, log))) => existsb (fun e => match e with Say l => if list_eq_dec Z.eq_dec l ([10] ++ lit "ICC data:" ++ [10]) then true else false | _ => false end) ev = true /\
      In (gpo_command [0x83; 6; 0; 0; 0; 0; 0x12; 0x34]) log
  | _ => False end.
Proof. vm_compute. split; [reflexivity|]. repeat (first [left; reflexivity|right]). Qed.
(** Amounts that do not fit the entry lose their leading digits. *)
Example C156_told_ex : told 0x09 123456 0 t_time (0x9F02, 2) [0x34; 0x56] /\ ~ told 0x09 123456 0 t_time (0x9F02, 2) [0x12; 0x34].
Proof.
  split.
  - unfold told. split; [reflexivity|]. split; [intros _; split; [repeat constructor; unfold is_byte; cbn; lia|reflexivity]|].
    repeat (split; [intro Q; discriminate Q|]). intro Q; discriminate Q.
  - intros (_ & H & _). destruct (H eq_refl) as (_ & Q). vm_compute in Q. discriminate Q.
Qed.
