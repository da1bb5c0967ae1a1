(** C166: building candidate lists and selecting applications neither loses an
    application nor releases one twice.  Statements: properties.jsonl. *)
From Verif Require Import Base BaseLemmas BerModel TlvListModel TlvListProofs TlvModel DolModel TtlModel FieldsModel AppModel AppSpec
  AppProofs TalModel EmvModel OwnModel OwnSpec OwnProofs.

(** Building the candidate list over nodes does what it does over values, keeps
    every other application as it is, and leaves exactly the nodes of the list and the
    others allocated - in every outcome. *)
Theorem C166_candidates {T} (x : transport T) junk others fuel s c apps h l :
  holds h l apps others ->
  match build_candidate_list x junk fuel s c apps with
  | Ret (r, apps', s') => exists h' l', build_candidate_list_h x junk fuel s c h l = Ret (r, h', l', s') /\
      holds h' l' apps' others /\ untouched h h' others
  | UB => build_candidate_list_h x junk fuel s c h l = UB
  | NoFuel => build_candidate_list_h x junk fuel s c h l = NoFuel
  end.
Proof.
  intros H. pose proof (build_step x junk others fuel s c apps h l H) as B. unfold in_step in B.
  destruct (build_candidate_list x junk fuel s c apps) as [[[r apps'] s']| |]; [|exact B|exact B].
  destruct B as ([[[r1 h1] l1] s1] & E & -> & -> & H1 & U1). eauto.
Qed.

(** Selecting: the application selected before and the one taken from the list are
    released, the one selected now is a node of its own, nothing else changes. *)
Theorem C166_selection {T} (x : transport T) junk others s c sel apps h l index :
  holds h l apps (ptr sel ++ others) -> selected h sel (option_map fst (k_app c)) ->
  match select_application x junk s c apps index with
  | Ret (r, apps', c', s') => exists sel' h' l',
      select_application_h x junk s sel h l index = Ret (r, sel', h', l', s') /\
      holds h' l' apps' (ptr sel' ++ others) /\ selected h' sel' (option_map fst (k_app c')) /\ untouched h h' others
  | UB => select_application_h x junk s sel h l index = UB
  | NoFuel => select_application_h x junk s sel h l index = NoFuel
  end.
Proof.
  intros H S. pose proof (select_step x junk others s c sel apps h l index H S) as B. unfold in_step in B.
  destruct (select_application x junk s c apps index) as [[[[r apps'] c'] s']| |]; [|exact B|exact B].
  destruct B as ([[[[r1 p1] h1] l1] s1] & E & -> & -> & H1 & S1 & U1). exists p1, h1, l1. auto.
Qed.

(** Any history of building, selecting, resetting the context and clearing the list. *)
Theorem C166_history {T} (x : transport T) junk others fuel os s c sel apps h l :
  holds h l apps (ptr sel ++ others) -> selected h sel (option_map fst (k_app c)) ->
  match history x junk fuel os s c apps with
  | Ret (rs, apps', c', s') => exists sel' h' l',
      history_h x junk fuel os s c sel h l = Ret (rs, sel', h', l', s') /\
      holds h' l' apps' (ptr sel' ++ others) /\ selected h' sel' (option_map fst (k_app c')) /\ untouched h h' others
  | UB => history_h x junk fuel os s c sel h l = UB
  | NoFuel => history_h x junk fuel os s c sel h l = NoFuel
  end.
Proof.
  intros H S. pose proof (history_step x junk others fuel c os s c sel apps h l H S eq_refl) as B. unfold in_step in B.
  destruct (history x junk fuel os s c apps) as [[[[rs apps'] c'] s']| |]; [|exact B|exact B].
  destruct B as ([[[[r1 p1] h1] l1] s1] & E & -> & -> & H1 & S1 & U1). exists p1, h1, l1. auto.
Qed.

Lemma history_last {T} (x : transport T) junk fuel : forall os s c apps rs apps' c' s',
  history x junk fuel (os ++ [Reset; Clear]) s c apps = Ret (rs, apps', c', s') -> apps' = [] /\ k_app c' = None.
Proof.
  induction os as [|o os IH]; intros s c apps rs apps' c' s' E.
  - cbn [app history act ctx_reset bind] in E. inversion E; subst. auto.
  - cbn [app history] in E. destruct (act x junk fuel o s c apps) as [[[[r a1] c1] s1]| |]; cbn [bind] in E; try discriminate.
    destruct (history x junk fuel (os ++ [Reset; Clear]) s1 c1 a1) as [[[[r2 a2] c2] s2]| |] eqn:E2; cbn [bind] in E; try discriminate.
    inversion E; subst. exact (IH _ _ _ _ _ _ _ E2).
Qed.
(** After any history, resetting the context and clearing the list releases every
    application that the library made: what is allocated is what was allocated
    elsewhere before, unchanged. *)
Theorem C166_no_leak {T} (x : transport T) junk others fuel os s c sel apps h l rs sel' h' l' s' :
  holds h l apps (ptr sel ++ others) -> selected h sel (option_map fst (k_app c)) ->
  history_h x junk fuel (os ++ [Reset; Clear]) s c sel h l = Ret (rs, sel', h', l', s') ->
  sel' = None /\ l' = mkAL None None /\
  forall a, (In a others -> live h' a /\ nth_error h' a = nth_error h a) /\ (~ In a others -> ~ live h' a).
Proof.
  intros H S E. pose proof (C166_history x junk others fuel (os ++ [Reset; Clear]) s c sel apps h l H S) as B.
  destruct (history x junk fuel (os ++ [Reset; Clear]) s c apps) as [[[[rs1 apps1] c1] s1]| |] eqn:Eh;
    [|rewrite B in E; discriminate|rewrite B in E; discriminate].
  destruct (history_last _ _ _ _ _ _ _ _ _ _ _ Eh) as (-> & Ka).
  destruct B as (sel1 & h1 & l1 & E1 & H1 & S1 & U1). rewrite E in E1. injection E1 as _ <- <- <- _.
  rewrite Ka in S1. cbn [option_map] in S1. destruct sel' as [p|]; [contradiction|]. cbn [ptr app] in H1.
  destruct H1 as (cs & R & M & _ & L). destruct cs; [|discriminate M]. split; [reflexivity|]. split.
  - destruct R as (C & B & _). apply chain_nil_head in C. cbn [last_addr] in B. destruct l' as [fr bk]. cbn [al_front al_back] in C, B. now subst.
  - cbn [map app] in L. intros a. split; [intros Ha; split; [apply L, Ha|apply U1, Ha]|]. intros Ha Hl. apply Ha, L, Hl.
Qed.

(** ** Example: a card without directory and with three applications, the second of
    them blocked; the third is known to the terminal by its first octets. *)
Definition ex_fci (aid : list Z) (p : Z) : list Z :=
  let inner := 0x84 :: Zlen aid :: aid ++ [0xA5; 3; 0x87; 1; p] in 0x6F :: Zlen inner :: inner.
Definition ex_x : transport nat := mkTr
  (fun n name => Ret (if FieldsModel.list_eqb name EMV_PSE then mkAns 0 [] 0x6A82 (S n)
     else if FieldsModel.list_eqb name [0xA0;0;0;0;2] then mkAns 0 (ex_fci name 1) 0x6283 (S n)
     else if FieldsModel.list_eqb name [0xA0;0;0;0;3] then mkAns 0 (ex_fci (name ++ [1]) 1) 0x9000 (S n)
     else mkAns 0 (ex_fci name 2) 0x9000 (S n)))
  (fun n name => Ret (mkAns 0 [] 0x6A82 (S n)))
  (fun n _ _ => Ret (mkAns 0 [] 0x6A83 (S n))) (fun n _ => Ret (mkAns 0 [] 0x6A81 (S n))).
Definition ex_aid (l : list Z) (fl : Z) : field := mkField 0x4F (Zlen l) l fl.
Definition ex_ctx : ctx := mkCtx true []
  [ex_aid [0xA0;0;0;0;1] 0; ex_aid [0xA0;0;0;0;2] 0; ex_aid [0xA0;0;0;0;3] 1] [] None [] [].
Definition ex_junk : list Z := repeat 0 17.
(** The nodes that are allocated. *)
Definition lives (h : aheap) : list bool := map (fun n => match n with Some _ => true | None => false end) h.
Example C166_ex : exists h1 l1 s1 h2 l2 s2 h3 l3 s3 h4 s4,
  (* two candidates; the blocked application is gone *)
  history_h ex_x ex_junk 9 [Build] 0%nat ex_ctx None [] alist_init = Ret ([0], None, h1, l1, s1) /\
  lives h1 = [true; false; true] /\ al_front l1 = Some 2%nat /\ al_back l1 = Some 0%nat /\
  (* the first is selected: node 2 is released, node 3 made *)
  history_h ex_x ex_junk 9 [Build; Select 0] 0%nat ex_ctx None [] alist_init = Ret ([0; 0], Some 3%nat, h2, l2, s2) /\
  lives h2 = [true; false; false; true] /\ al_front l2 = Some 0%nat /\
  (* the next one: node 3 is released as well *)
  history_h ex_x ex_junk 9 [Build; Select 0; Select 0] 0%nat ex_ctx None [] alist_init = Ret ([0; 0; 0], Some 4%nat, h3, l3, s3) /\
  lives h3 = [false; false; false; false; true] /\ al_front l3 = None /\
  history_h ex_x ex_junk 9 [Build; Select 0; Select 7; Reset; Clear] 0%nat ex_ctx None [] alist_init =
    Ret ([0; 0; -2; 0; 0], None, h4, alist_init, s4) /\
  lives h4 = [false; false; false; false].
Proof. do 11 eexists. repeat (split; [vm_compute; reflexivity|]). vm_compute; reflexivity. Qed.
Example C166_start : holds [] alist_init [] [] /\ selected [] None (option_map fst (k_app ex_ctx)).
Proof.
  split; [|exact I]. exists []. split; [apply arep_init|]. split; [reflexivity|]. split; [constructor|].
  intros a. split; [|intros []]. intros (n & E). destruct a; discriminate.
Qed.

Print Assumptions C166_candidates.
Print Assumptions C166_selection.
Print Assumptions C166_history.
Print Assumptions C166_no_leak.
