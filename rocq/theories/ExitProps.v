(** C168: how emv-tool ends.  Statements: properties.jsonl. *)
From Coq Require Import String.
From Verif Require Import Base BaseLemmas TlvListModel StrModel AtrModel PcscModel AppModel TalModel TtlModel TtlSpec TalProps EmvModel EmvProps CapduModel FlagsModel ToolsModel
  PrintModel DecodeModel TermModel TermSession TermProps ExitModel.
Open Scope string_scope.
Open Scope Z_scope.
Open Scope list_scope.
Notation length := List.length.

Ltac said2 := unfold icc_line, line; let E := fresh in intros E; apply (f_equal (fun e => match e with Say l => l | _ => [] end)) in E; vm_compute in E; discriminate.
Lemma quiet_loop {T} (x : transport T) junk buf fuel : forall s c apps required i ok ev apps' c' s' i',
  select_loop x junk buf fuel s c apps required i = Ret (ok, ev, apps', c', s', i') -> ~ In icc_line ev.
Proof.
  induction fuel as [|fuel IH]; intros s c apps required i ok ev apps' c' s' i' E; [discriminate E|]. cbn [select_loop] in E.
  match type of E with bind ?m _ = _ => destruct m as [[[first choice] i1]| |] eqn:Ef; cbn [bind] in E; try discriminate E end.
  assert (N1 : ~ In icc_line first).
  { destruct required.
    - destruct (menu 1 apps) as [m| |]; cbn [bind] in Ef; try discriminate Ef. destruct (ask i (Zlen apps)) as [o i2].
      injection Ef as <- _ _. intros [Q|[]]. exact (icc_select _ Q).
    - injection Ef as <- _ _. intros [Q|[]]. exact (icc_first Q). }
  assert (Nr : forall r, ~ In icc_line (first ++ [report r])).
  { intros r Q. apply in_app_iff in Q. destruct Q as [Q|[Q|[]]]; [exact (N1 Q)|exact (icc_report _ Q)]. }
  assert (Ag : forall ev1 s1 c1 apps1 i2, ~ In icc_line ev1 ->
    (let* (b, ev', apps, c, s, i) := select_loop x junk buf fuel s1 c1 apps1 required i2 in Ret (b, ev1 ++ ev', apps, c, s, i)) = Ret (ok, ev, apps', c', s', i') -> ~ In icc_line ev).
  { intros ev1 s1 c1 apps1 i2 N Q. destruct (select_loop x junk buf fuel s1 c1 apps1 required i2) as [[[[[[b e2] a2] c2] s2] i3]| |] eqn:El; cbn [bind] in Q; try discriminate Q.
    apply inv_ret in Q. apply IH in El. assert (ev = ev1 ++ e2) as -> by congruence. rewrite in_app_iff. tauto. }
  destruct choice as [index|].
  2:{ revert E. apply Ag. rewrite in_app_iff. intros [Q|[Q|[]]]; [exact (N1 Q)|exact (icc_invalid Q)]. }
  destruct (select_application x junk s c apps index) as [[[[r a1] c1] s1]| |]; cbn [bind] in E; try discriminate E.
  destruct (r <? 0). { apply inv_ret in E. assert (ev = first ++ [report r]) as -> by congruence. apply Nr. }
  destruct (0 <? r).
  { destruct (r =? TRY_AGAIN); [revert E; now apply Ag|]. apply inv_ret in E. assert (ev = first ++ [report r]) as -> by congruence. apply Nr. }
  destruct (k_app c1). 2:{ apply inv_ret in E. assert (ev = first) as -> by congruence. exact N1. }
  cbv zeta in E. assert (N2 : ~ In icc_line (first ++ [Say (newline ++ lit "Initiate application processing:" ++ newline)])).
  { rewrite in_app_iff. intros [Q|[Q|[]]]; [exact (N1 Q)|exact (icc_initiate Q)]. }
  set (f2 := first ++ [Say (newline ++ lit "Initiate application processing:" ++ newline)]) in *.
  assert (Nr2 : forall r, ~ In icc_line (f2 ++ [report r])).
  { intros r2 Q. apply in_app_iff in Q. destruct Q as [Q|[Q|[]]]; [exact (N2 Q)|exact (icc_report _ Q)]. }
  destruct (initiate x buf s1 c1 5) as [[[r2 c2] s2]| |]; cbn [bind] in E; try discriminate E.
  destruct (r2 <? 0). { apply inv_ret in E. assert (ev = f2 ++ [report r2]) as -> by congruence. apply Nr2. }
  destruct (0 <? r2).
  { match type of E with (if ?b then _ else _) = _ => destruct b end; [revert E; apply Ag, Nr2|]. apply inv_ret in E. assert (ev = f2 ++ [report r2]) as -> by congruence. apply Nr2. }
  apply inv_ret in E. assert (ev = f2) as -> by congruence. exact N2.
Qed.

(** The transaction of [session_x] is that of [session]. *)
Lemma session_same {T} (x : transport T) junk buf fuel rounds s t o i :
  match session x junk buf fuel rounds s t o i with
  | Ret (ev, c, s') => exists b, session_x x junk buf fuel rounds s t o i = Ret (ev, b, s') /\ (b = true <-> In icc_line ev)
  | UB => session_x x junk buf fuel rounds s t o i = UB
  | NoFuel => session_x x junk buf fuel rounds s t o i = NoFuel
  end.
Proof.
  unfold session, session_x. destruct (load_params (firstn 6 buf) t 42 (o_type o) (o_amount o) (o_other o)) as [params| |]; cbn [bind]; try reflexivity.
  cbv zeta. match goal with |- context [build_candidate_list x junk fuel s ?c []] => destruct (build_candidate_list x junk fuel s c []) as [[[r apps] s1]| |]; cbn [bind]; try reflexivity end.
  match goal with |- context [?a :: ?b :: ?c :: ?d :: ?e :: ?f :: ?g :: []] => set (ev0 := [a; b; c; d; e; f; g]) end.
  assert (N0 : ~ In icc_line ev0).
  { unfold ev0. cbn [In]. intros [Q|[Q|[Q|[Q|[Q|[Q|[Q|[]]]]]]]]; revert Q; first [said2|discriminate]. }
  destruct (negb (r =? 0)).
  { exists false. split; [reflexivity|]. split; [discriminate|]. rewrite in_app_iff. intros [Q|[Q|[]]]; [contradiction|destruct (icc_report _ Q)]. }
  destruct (print_apps apps) as [shown| |] eqn:Es; cbn [bind]; try reflexivity.
  match goal with |- context [select_loop x junk buf rounds s1 ?c apps ?q i] => destruct (select_loop x junk buf rounds s1 c apps q i) as [[[[[[ok e2] a2] c2] s2] i2]| |] eqn:El; cbn [bind]; try reflexivity end.
  apply quiet_loop in El. apply icc_apps in Es.
  set (ev1 := (ev0 ++ [line "Candidate applications:"] ++ shown ++ (if selection_required apps then [line "Cardholder selection is required"] else [])) ++ e2).
  assert (N1 : ~ In icc_line ev1).
  { unfold ev1. rewrite !in_app_iff. intros [[Q|[[Q|[]]|[Q|Q]]]|Q]; try contradiction; [revert Q; said2|].
    destruct (selection_required apps); [|contradiction]. destruct Q as [Q|[]]. revert Q. said2. }
  destruct (negb ok). { exists false. split; [reflexivity|]. split; [discriminate|contradiction]. }
  destruct (read_application_data x fuel s2 c2) as [[[r3 c3] s3]| |]; cbn [bind]; try reflexivity.
  assert (N2 : ~ In icc_line (ev1 ++ [Say (newline ++ lit "Read application data" ++ newline)])).
  { rewrite in_app_iff. intros [Q|[Q|[]]]; [contradiction|]. revert Q. said2. }
  destruct (negb (r3 =? 0)).
  - exists false. split; [reflexivity|]. split; [discriminate|]. rewrite in_app_iff. intros [Q|[Q|[]]]; [contradiction|destruct (icc_report _ Q)].
  - exists true. split; [reflexivity|]. split; [intros _; apply in_app_iff; right; left; reflexivity|reflexivity].
Qed.

(** The order of the calls of a run, before PC/SC is released. *)
Definition all_calls : list pcall := [CInit; CWait; CConnect; CAtr; CExchange; CDisconnect].
(** Whatever happens, the calls made are the first ones of these, and then the release - once; or none at all, if
    the command line is not usable.  Something is sent to the card only in the transaction. *)
Theorem C168_calls : forall T (x : transport T) junk buf fuel rounds s t args opts w i st calls ev s',
  main_status x junk buf fuel rounds s t args opts w i = Ret (st, calls, ev, s') ->
  (calls = [] \/ exists n, (1 <= n)%nat /\ calls = firstn n all_calls ++ [CRelease]) /\ (s' <> s -> In CExchange calls).
Proof.
  intros T x junk buf fuel rounds s t args opts w i st calls ev s' E. unfold main_status in E.
  assert (K : forall n cs e s1 st calls ev s', cs = firstn n all_calls -> (1 <= n)%nat -> (s1 = s \/ In CExchange cs) -> pcsc_exit cs e s1 = Ret (st, calls, ev, s') ->
    (calls = [] \/ exists n, (1 <= n)%nat /\ calls = firstn n all_calls ++ [CRelease]) /\ (s' <> s -> In CExchange calls)).
  { intros n cs e s1 st1 calls1 ev1 s1' -> N S Q. unfold pcsc_exit in Q. injection Q as <- <- <- <-. split; [right; eauto|].
    intros D. destruct S as [S|S]; [contradiction|]. apply in_app_iff. now left. }
  destruct args; cbn [negb] in E; [|injection E as <- <- <- <-; split; [auto|congruence]].
  destruct (parse_options settings0 opts) as [o|m|]; [|injection E as <- <- <- <-; split; [auto|congruence]|injection E as <- <- <- <-; split; [auto|congruence]].
  destruct (w_strings w <? 0); [injection E as <- <- <- <-; split; [auto|congruence]|]. unfold main_card in E.
  destruct (negb (w_init w =? 0)); [apply (K 1%nat _ _ _ _ _ _ _ eq_refl ltac:(lia) (or_introl eq_refl) E)|].
  destruct (w_count w =? 0); [apply (K 1%nat _ _ _ _ _ _ _ eq_refl ltac:(lia) (or_introl eq_refl) E)|].
  destruct (p_wait (w_card w) <? 0); [apply (K 2%nat _ _ _ _ _ _ _ eq_refl ltac:(lia) (or_introl eq_refl) E)|].
  destruct (0 <? p_wait (w_card w)); [apply (K 2%nat _ _ _ _ _ _ _ eq_refl ltac:(lia) (or_introl eq_refl) E)|].
  destruct (p_connect (w_card w) <? 0); [apply (K 3%nat _ _ _ _ _ _ _ eq_refl ltac:(lia) (or_introl eq_refl) E)|].
  destruct (p_connect (w_card w) =? TYPE_CONTACT).
  2:{ destruct (p_connect (w_card w) =? TYPE_CONTACTLESS); apply (K 3%nat _ _ _ _ _ _ _ eq_refl ltac:(lia) (or_introl eq_refl) E). }
  destruct (p_atr (w_card w)) as [atr|]; [|apply (K 4%nat _ _ _ _ _ _ _ eq_refl ltac:(lia) (or_introl eq_refl) E)].
  destruct (emv_atr_parse atr) as [r| |]; cbn [bind] in E; try discriminate E.
  destruct (negb (r =? 0)); [apply (K 4%nat _ _ _ _ _ _ _ eq_refl ltac:(lia) (or_introl eq_refl) E)|].
  destruct (session_x x junk buf fuel rounds s t o i) as [[[e2 b] s2]| |]; cbn [bind] in E; try discriminate E.
  destruct b; [refine (K 6%nat _ _ _ _ _ _ _ eq_refl _ _ E)|refine (K 5%nat _ _ _ _ _ _ _ eq_refl _ _ E)]; try lia; right; cbn [firstn all_calls In]; unfold all_calls; cbn [In]; tauto.
Qed.

(** The exit status tells about the command line and the tables.  Missing: about the transaction. *)
Theorem C168_status_partial : forall T (x : transport T) junk buf fuel rounds s t args opts w i st calls ev s',
  main_status x junk buf fuel rounds s t args opts w i = Ret (st, calls, ev, s') ->
  (st = 1 <-> args = false) /\
  (st = 64 <-> args = true /\ exists m, parse_options settings0 opts = Rejected m) /\
  (st = 2 <-> args = true /\ exists o, parse_options settings0 opts = Accepted o /\ w_strings w < 0) /\
  (st <> 0 -> st = 1 \/ st = 64 \/ st = 2) /\ (st <> 0 -> calls = [] /\ ev = [] /\ s' = s).
Proof.
  intros T x junk buf fuel rounds s t args opts w i st calls ev s' E. unfold main_status in E.
  assert (K : forall o, main_card x junk buf fuel rounds s t o w i = Ret (st, calls, ev, s') -> st = 0).
  { intros o Q. unfold main_card, pcsc_exit in Q.
    repeat match type of Q with
    | (if ?b then _ else _) = _ => destruct b; [injection Q; congruence|]
    end.
    destruct (p_connect (w_card w) =? TYPE_CONTACT).
    2:{ destruct (p_connect (w_card w) =? TYPE_CONTACTLESS); injection Q; congruence. }
    destruct (p_atr (w_card w)) as [atr|]; [|injection Q; congruence].
    destruct (emv_atr_parse atr) as [r| |]; cbn [bind] in Q; try discriminate Q.
    destruct (negb (r =? 0)); [injection Q; congruence|].
    destruct (session_x x junk buf fuel rounds s t o i) as [[[e2 b] s2]| |]; cbn [bind] in Q; try discriminate Q.
    destruct b; injection Q; congruence. }
  destruct args; cbn [negb] in E.
  2:{ injection E as <- <- <- <-. split; [tauto|]. split; [split; [discriminate|intros [Q _]; discriminate]|]. split; [split; [discriminate|intros [Q _]; discriminate]|]. auto. }
  destruct (parse_options settings0 opts) as [o|m|].
  - destruct (w_strings w <? 0) eqn:Ew.
    + injection E as <- <- <- <-. split; [split; discriminate|]. split; [split; [discriminate|intros (_ & m & Q); discriminate]|].
      split; [split; [intros _; split; [reflexivity|]; exists o; split; [reflexivity|lia]|reflexivity]|]. auto.
    + rewrite (K o E). split; [split; discriminate|]. split; [split; [discriminate|intros (_ & m & Q); discriminate]|].
      split; [split; [discriminate|intros (_ & o' & _ & Q); lia]|]. split; intros Q; destruct (Q eq_refl).
  - injection E as <- <- <- <-. split; [split; discriminate|]. split; [split; [eauto|reflexivity]|].
    split; [split; [discriminate|intros (_ & o' & Q & _); discriminate]|]. auto.
  - injection E as <- <- <- <-. split; [split; discriminate|]. split; [split; [discriminate|intros (_ & m & Q); discriminate]|].
    split; [split; [discriminate|intros (_ & o' & Q & _); discriminate]|]. split; intros Q; destruct (Q eq_refl).
Qed.

(** The card is deactivated if the transaction is completed, that is if its data are printed, and the last line
    says whether that worked.  Missing: that it is deactivated otherwise. *)
Theorem C168_deactivated_partial : forall T (x : transport T) junk buf fuel rounds s t args opts w i st calls ev s',
  main_status x junk buf fuel rounds s t args opts w i = Ret (st, calls, ev, s') ->
  (In CDisconnect calls <-> In (Say ([10] ++ lit "ICC data:" ++ [10])) ev) /\
  (In CDisconnect calls -> exists ev', ev = ev' ++ [Say (if w_disconnect w =? 0 then [10] ++ lit "Card deactivated" ++ [10] else lit "PC/SC reader deactivation failed" ++ [10])]).
Proof.
  intros T x junk buf fuel rounds s t args opts w i st calls ev s' E. unfold main_status in E. fold newline. change (Say ([10] ++ lit "ICC data:" ++ [10])) with icc_line.
  assert (K : forall cs e s1, ~ In CDisconnect cs -> ~ In icc_line e -> pcsc_exit cs e s1 = Ret (st, calls, ev, s') ->
    (In CDisconnect calls <-> In icc_line ev) /\ (In CDisconnect calls -> exists ev', ev = ev' ++ [Say (if w_disconnect w =? 0 then newline ++ lit "Card deactivated" ++ newline else lit "PC/SC reader deactivation failed" ++ newline)])).
  { intros cs e s1 N1 N2 Q. unfold pcsc_exit in Q. injection Q as <- <- <- <-. assert (N3 : ~ In CDisconnect (cs ++ [CRelease])).
    { rewrite in_app_iff. intros [Q|[Q|[]]]; [contradiction|discriminate]. } tauto. }
  assert (N0 : forall cs, cs = [CInit] \/ cs = [CInit; CWait] \/ cs = [CInit; CWait; CConnect] \/ cs = [CInit; CWait; CConnect; CAtr] \/ cs = [CInit; CWait; CConnect; CAtr; CExchange] -> ~ In CDisconnect cs).
  { intros cs [-> |[-> |[-> |[-> | ->]]]]; cbn [In]; intuition discriminate. }
  destruct args; cbn [negb] in E; [|injection E as <- <- <- <-; split; [cbn [In]; tauto|intros []]].
  destruct (parse_options settings0 opts) as [o|m|]; [|injection E as <- <- <- <-; split; [cbn [In]; tauto|intros []]|injection E as <- <- <- <-; split; [cbn [In]; tauto|intros []]].
  destruct (w_strings w <? 0); [injection E as <- <- <- <-; split; [cbn [In]; tauto|intros []]|]. unfold main_card in E.
  Local Ltac lines := cbn [app In]; intros Q; repeat (destruct Q as [Q|Q]; [revert Q; said2|]); exact Q.
  destruct (negb (w_init w =? 0)); [refine (K _ _ _ _ _ E); [apply N0; tauto|lines]|].
  destruct (w_count w =? 0); [refine (K _ _ _ _ _ E); [apply N0; tauto|lines]|].
  destruct (p_wait (w_card w) <? 0); [refine (K _ _ _ _ _ E); [apply N0; tauto|lines]|].
  destruct (0 <? p_wait (w_card w)); [refine (K _ _ _ _ _ E); [apply N0; tauto|lines]|].
  destruct (p_connect (w_card w) <? 0); [refine (K _ _ _ _ _ E); [apply N0; tauto|lines]|].
  destruct (p_connect (w_card w) =? TYPE_CONTACT).
  2:{ destruct (p_connect (w_card w) =? TYPE_CONTACTLESS); (refine (K _ _ _ _ _ E); [apply N0; tauto|lines]). }
  destruct (p_atr (w_card w)) as [atr|]; [|refine (K _ _ _ _ _ E); [apply N0; tauto|lines]].
  destruct (emv_atr_parse atr) as [r| |]; cbn [bind] in E; try discriminate E.
  assert (N1 : ~ In icc_line [Say (newline ++ lit "Present card" ++ newline); line "Card activated"]) by lines.
  destruct (negb (r =? 0)).
  { refine (K _ _ _ _ _ E); [apply N0; tauto|]. cbn [app In]. intros [Q|[Q|[Q|[]]]]; [revert Q; said2|revert Q; said2|exact (icc_report _ Q)]. }
  pose proof (session_same x junk buf fuel rounds s t o i) as P.
  destruct (session x junk buf fuel rounds s t o i) as [[[e2 c2] s2]| |]; [|rewrite P in E; discriminate E|rewrite P in E; discriminate E].
  destruct P as (b & P & B). rewrite P in E. cbn [bind] in E. destruct b.
  - unfold pcsc_exit in E. apply inv_ret in E. apply pair_equal_spec in E as (E & <-). apply pair_equal_spec in E as (E & <-). apply pair_equal_spec in E as (_ & <-). split; [split; intros _|].
    + apply in_app_iff. right. apply in_app_iff. left. apply B. reflexivity.
    + cbn [app In]. tauto.
    + intros _. eexists. rewrite app_assoc. f_equal. destruct (w_disconnect w =? 0); reflexivity.
  - refine (K _ _ _ _ _ E); [apply N0; tauto|]. rewrite in_app_iff. intros [Q|Q]; [exact (N1 Q)|]. apply B in Q. discriminate.
Qed.

(** The run is that of [tool] (C137, C138), as far as it goes. *)
Theorem C168_same : forall T (x : transport T) junk buf fuel rounds s t opts w i, w_strings w >= 0 -> w_init w = 0 -> w_count w <> 0 ->
  match snd (tool x junk buf fuel rounds s t opts (w_card w) i) with
  | Ret (ev, s') => exists st calls last, main_status x junk buf fuel rounds s t true opts w i = Ret (st, calls, ev ++ last, s') /\ (last <> [] -> In CDisconnect calls)
  | UB => main_status x junk buf fuel rounds s t true opts w i = UB
  | NoFuel => main_status x junk buf fuel rounds s t true opts w i = NoFuel
  end.
Proof.
  intros T x junk buf fuel rounds s t opts w i W1 W2 W3. unfold tool, main_status, main_card. cbn [negb].
  assert (Nil : forall (st : Z) (calls : list pcall) (ev : list event) (s1 : T), exists (st' : Z) (calls' : list pcall) (last : list event), Ret (st, calls, ev, s1) = Ret (st', calls', ev ++ last, s1) /\ (last <> [] -> In CDisconnect calls')).
  { intros st calls ev s1. exists st, calls, []. split; [now rewrite app_nil_r|congruence]. }
  destruct (parse_options settings0 opts) as [o|m|]; cbn [snd]; [|apply Nil|apply Nil].
  replace (w_strings w <? 0) with false by (symmetry; apply Z.ltb_ge; lia). rewrite W2. cbn [Z.eqb negb].
  replace (w_count w =? 0) with false by (symmetry; apply Z.eqb_neq; exact W3). unfold pcsc_exit.
  destruct (p_wait (w_card w) <? 0); [apply Nil|]. destruct (0 <? p_wait (w_card w)); [apply Nil|].
  destruct (p_connect (w_card w) <? 0); [apply Nil|]. destruct (p_connect (w_card w) =? TYPE_CONTACT).
  2:{ destruct (p_connect (w_card w) =? TYPE_CONTACTLESS); apply Nil. }
  destruct (p_atr (w_card w)) as [atr|]; [|apply Nil]. destruct (emv_atr_parse atr) as [r| |]; cbn [bind]; try reflexivity.
  destruct (negb (r =? 0)); [apply Nil|]. pose proof (session_same x junk buf fuel rounds s t o i) as P.
  destruct (session x junk buf fuel rounds s t o i) as [[[e2 c2] s2]| |]; cbn [bind]; [|rewrite P; reflexivity|rewrite P; reflexivity].
  destruct P as (b & P & B). rewrite P. cbn [bind]. destruct b; [|apply Nil].
  do 3 eexists. split; [rewrite app_assoc; reflexivity|]. intros _. cbn [app In]. tauto.
Qed.

(** A transaction that fails: the status is 0 and the card stays active. *)
Definition x_world : world := mkWorld 0 0 1 t_card 0.
Definition x_opts : list toption := [TxnType (lit "00"); TxnAmount (lit "1")].
Theorem C168_status_refuted : exists calls ev s', main_status ex_tr zeros17 gbuf 30 5 ([[0x6A; 0x81]], []) t_time true x_opts x_world [] = Ret (0, calls, ev, s') /\
  In (Say (lit "OUTCOME: Card blocked" ++ [10])) ev.
Proof. do 3 eexists. split; [vm_compute; reflexivity|]. vm_compute. auto 20. Qed.
Theorem C168_deactivated_refuted : exists st ev s', main_status ex_tr zeros17 gbuf 30 5 ([[0x6A; 0x81]], []) t_time true x_opts x_world [] = Ret (st, [CInit; CWait; CConnect; CAtr; CExchange; CRelease], ev, s') /\
  In (Say (lit "Card activated" ++ [10])) ev.
Proof. do 3 eexists. split; [vm_compute; reflexivity|]. vm_compute. auto 20. Qed.
Example C168_ex :
  match main_status ex_tr zeros17 gbuf 30 5 (t_script, []) t_time true x_opts x_world [] with
  | Ret (st, calls, ev, _) => (st, calls, last ev icc_line) | _ => (1, [], icc_line) end =
    (0, [CInit; CWait; CConnect; CAtr; CExchange; CDisconnect; CRelease], Say ([10] ++ lit "Card deactivated" ++ [10])) /\
  main_status ex_tr zeros17 gbuf 30 5 (t_script, []) t_time true [TxnType (lit "0")] x_world [] = Ret (64, [], [], (t_script, [])) /\
  main_status ex_tr zeros17 gbuf 30 5 (t_script, []) t_time true x_opts (mkWorld 0 0 0 t_card 0) [] =
    Ret (0, [CInit; CRelease], [Say (lit "No PC/SC readers detected" ++ [10])], (t_script, [])).
Proof. split; [vm_compute; reflexivity|]. split; vm_compute; reflexivity. Qed.

Print Assumptions C168_calls.
Print Assumptions C168_status_partial.
Print Assumptions C168_deactivated_partial.
Print Assumptions C168_same.
Print Assumptions C168_status_refuted.
Print Assumptions C168_deactivated_refuted.
