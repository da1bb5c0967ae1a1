(** C167: processing an application and reading its data neither loses a field nor
    releases one twice.  Statements: properties.jsonl. *)
From Verif Require Import Base BaseLemmas BerModel TlvListModel TlvListProofs TlvModel DolModel TtlModel FieldsModel AppModel
  TalModel EmvModel OwnSpec OwnProofs HoldModel HoldSpec HoldProofs.

(** emv_tal_get_processing_options over nodes does what it does over sequences; every
    allocated field is in the list or elsewhere as before, in every outcome; and the
    pointers it gives out are at fields of the list, or at released ones, exactly as
    the model over sequences says (C67 says when). *)
Theorem C167_gpo {T} (x : transport T) others s data h l addrs fs :
  rep h l addrs fs -> owns h (addrs ++ others) ->
  match get_processing_options x s data fs with
  | Ret (r, fs', aip, afl, s') => exists h' l' p q addrs',
      get_processing_options_h x s data h l = Ret (r, h', l', p, q, s') /\
      rep h' l' addrs' fs' /\ owns h' (addrs' ++ others) /\ mild h h' others /\
      points h' addrs' fs' aip p /\ points h' addrs' fs' afl q
  | UB => get_processing_options_h x s data h l = UB
  | NoFuel => get_processing_options_h x s data h l = NoFuel
  end.
Proof.
  intros R H. pose proof (gpo_step x others s data h l addrs fs R H) as B. unfold OwnSpec.in_step in B.
  destruct (get_processing_options x s data fs) as [[[[[r fs'] aip] afl] s']| |]; [|exact B|exact B].
  destruct B as ([[[[[r1 h1] l1] p1] q1] s1] & E & -> & -> & A1 & B1). exists h1, l1, p1, q1, A1. auto.
Qed.

(** So does emv_tal_read_afl_records. *)
Theorem C167_records {T} (x : transport T) others rfuel s afl h l addrs fs :
  rep h l addrs fs -> owns h (addrs ++ others) ->
  match read_afl_records x rfuel s afl fs with
  | Ret (r, fs', s') => exists h' l' addrs',
      read_afl_records_h x rfuel s afl h l = Ret (r, h', l', s') /\
      rep h' l' addrs' fs' /\ owns h' (addrs' ++ others) /\ mild h h' others
  | UB => read_afl_records_h x rfuel s afl h l = UB
  | NoFuel => read_afl_records_h x rfuel s afl h l = NoFuel
  end.
Proof.
  intros R H. pose proof (afl_records_step x others rfuel s afl h l addrs fs R H) as B. unfold OwnSpec.in_step in B.
  destruct (read_afl_records x rfuel s afl fs) as [[[r fs'] s']| |]; [|exact B|exact B].
  destruct B as ([[[r1 h1] l1] s1] & E & -> & -> & A1 & B1). exists h1, l1, A1. auto.
Qed.

(** emv_initiate_application_processing: every field that is allocated afterwards is
    in one list of the context or elsewhere as before. *)
Theorem C167_initiate {T} (x : transport T) others buf s c hc h pos :
  ctx_rep h hc c others ->
  match initiate x buf s c pos with
  | Ret (r, c', s') => exists hc' h', initiate_h x buf s hc h pos = Ret (r, hc', h', s') /\
      ctx_rep h' hc' c' others /\ mild h h' others
  | UB => initiate_h x buf s hc h pos = UB
  | NoFuel => initiate_h x buf s hc h pos = NoFuel
  end.
Proof.
  intros H. pose proof (initiate_step x others buf s c hc h pos H) as B. unfold OwnSpec.in_step in B.
  destruct (initiate x buf s c pos) as [[[r c'] s']| |]; [|exact B|exact B].
  destruct B as ([[[r1 c1] h1] s1] & E & -> & -> & C1 & M1). eauto.
Qed.

(** emv_read_application_data. *)
Theorem C167_read {T} (x : transport T) others rfuel s c hc h :
  ctx_rep h hc c others ->
  match read_application_data x rfuel s c with
  | Ret (r, c', s') => exists hc' h', read_application_data_h x rfuel s hc h = Ret (r, hc', h', s') /\
      ctx_rep h' hc' c' others /\ mild h h' others
  | UB => read_application_data_h x rfuel s hc h = UB
  | NoFuel => read_application_data_h x rfuel s hc h = NoFuel
  end.
Proof.
  intros H. pose proof (read_step x others rfuel s c hc h H) as B. unfold OwnSpec.in_step in B.
  destruct (read_application_data x rfuel s c) as [[[r c'] s']| |]; [|exact B|exact B].
  destruct B as ([[[r1 c1] h1] s1] & E & -> & -> & C1 & M1). eauto.
Qed.

(** Any history of these and of emv_ctx_reset. *)
Theorem C167_history {T} (x : transport T) others buf rfuel os s c hc h :
  ctx_rep h hc c others ->
  match works x buf rfuel os s c with
  | Ret (rs, c', s') => exists hc' h', works_h x buf rfuel os s hc h = Ret (rs, hc', h', s') /\
      ctx_rep h' hc' c' others /\ mild h h' others
  | UB => works_h x buf rfuel os s hc h = UB
  | NoFuel => works_h x buf rfuel os s hc h = NoFuel
  end.
Proof.
  intros H. pose proof (works_step x others buf rfuel os s c hc h H) as B. unfold OwnSpec.in_step in B.
  destruct (works x buf rfuel os s c) as [[[r c'] s']| |]; [|exact B|exact B].
  destruct B as ([[[r1 c1] h1] s1] & E & -> & -> & C1 & M1). eauto.
Qed.

(** The field that [selected_app->aid] points to is always one of the fields of the
    context, or was released; so a use of it is a use of the very AID of the
    application or undefined, never of another field. *)
Theorem C167_aid {T} (x : transport T) others buf rfuel os s c hc h rs hc' h' s' tl p :
  ctx_rep h hc c others -> works_h x buf rfuel os s hc h = Ret (rs, hc', h', s') -> c_app hc' = Some (tl, p) ->
  exists c' a w, works x buf rfuel os s c = Ret (rs, c', s') /\ k_app c' = Some (a, w) /\
    match w with
    | Gone => load h' p = UB
    | _ => exists n, load h' p = Ret n /\ n_field n = a_aid a
    end.
Proof.
  intros H E Ea. pose proof (C167_history x others buf rfuel os s c hc h H) as B.
  destruct (works x buf rfuel os s c) as [[[rs1 c1] s1]| |]; [|rewrite E in B; discriminate|rewrite E in B; discriminate].
  destruct B as (hc1 & h1 & E1 & C1 & _). rewrite E in E1. injection E1 as <- <- <- <-.
  destruct C1 as (Ac & Ap & Aa & Ai & At & _ & _ & Ra & Ri & _). unfold app_rep in Ra. rewrite Ea in Ra.
  destruct (k_app c1) as [[a w]|] eqn:Ek; [|contradiction]. destruct Ra as (Ra & W). exists c1, a, w.
  split; [reflexivity|]. split; [exact Ek|].
  destruct w; [exact (at_load _ _ _ _ _ _ Ra W)|exact (at_load _ _ _ _ _ _ Ri W)|apply W].
Qed.

(** After any history, emv_ctx_clear succeeds and releases every field that belonged
    to the context or was made since: what is allocated is what was allocated elsewhere
    before, unchanged. *)
Theorem C167_no_leak {T} (x : transport T) others buf rfuel os s c hc h aids aids_a aids_v rs hc' h' s' :
  ctx_rep h hc c (aids_a ++ others) -> rep h aids aids_a aids_v ->
  works_h x buf rfuel os s hc h = Ret (rs, hc', h', s') ->
  exists h'', clear_h hc' aids h' = Ret (0, mkHC tlist_init tlist_init None tlist_init tlist_init, tlist_init, h'') /\
    forall a, (In a others -> is_live h'' a /\ load h'' a = load h a) /\ (~ In a others -> ~ is_live h'' a).
Proof.
  intros H Rs E. pose proof (C167_history x (aids_a ++ others) buf rfuel os s c hc h H) as B.
  destruct (works x buf rfuel os s c) as [[[rs1 c1] s1]| |]; [|rewrite E in B; discriminate|rewrite E in B; discriminate].
  destruct B as (hc1 & h1 & E1 & C1 & M1). rewrite E in E1. injection E1 as <- <- <- <-. unfold clear_h.
  destruct C1 as (Ac & Ap & Aa & Ai & At & Rc & Rp & Ra & Ri & Rt & O1).
  assert (Ra1 : rep h' aids aids_a aids_v) by (eapply rep_mild; [exact Rs|exact M1|incls]).
  destruct (t_clear h' (c_config hc') Ac _ _ Rc O1) as (h2 & E2 & O2 & M2 & _). rewrite E2. cbn [bind].
  set (Z0 := Ap ++ Aa ++ Ai ++ At ++ others).
  assert (O2' : owns h2 (aids_a ++ Z0)).
  { apply (occs_eq _ (Ap ++ Aa ++ Ai ++ At ++ aids_a ++ others)); [unfold Z0; occs|exact O2]. }
  assert (Ra2 : rep h2 aids aids_a aids_v) by (eapply rep_mild; [exact Ra1|exact M2|incls]).
  destruct (t_clear h2 aids aids_a _ _ Ra2 O2') as (h3 & E3 & O3 & M3 & _). rewrite E3. cbn [bind].
  assert (M23 : mild h' h3 Z0).
  { eapply mild_trans; [eapply mild_incl; [exact M2|unfold Z0; incls]|exact M3]. }
  assert (C3 : ctx_rep h3 (mkHC tlist_init (c_params hc') (c_app hc') (c_icc hc') (c_term hc'))
                 (mkCtx (k_ttl c1) [] (k_aids c1) (k_params c1) (k_app c1) (k_icc c1) (k_term c1)) others).
  { exists [], Ap, Aa, Ai, At. cbn [c_config c_params c_app c_icc c_term k_config k_params k_app k_icc k_term].
    split; [apply rep_init|]. split; [eapply rep_mild; [exact Rp|exact M23|unfold Z0; incls]|].
    split; [eapply app_mild; [exact Ra|exact M23|unfold Z0; incls]|].
    split; [eapply rep_mild; [exact Ri|exact M23|unfold Z0; incls]|].
    split; [eapply rep_mild; [exact Rt|exact M23|unfold Z0; incls]|]. exact O3. }
  destruct (reset_step others _ _ _ C3) as (hc4 & h4 & E4 & C4 & M4). rewrite E4. cbn [bind].
  destruct C4 as (Bc & Bp & Ba & Bi & Bt & Qc & Qp & Qa & Qi & Qt & O4).
  cbn [ctx_reset snd k_config k_params k_app k_icc k_term] in Qc, Qp, Qa, Qi, Qt.
  assert (Em : forall l A, rep h4 l A [] -> A = [] /\ l = tlist_init).
  { intros l A (Sg & Bk). inversion Sg as [E0|]; subst. destruct l as [fr bk]. cbn [front back lastopt] in *. now subst. }
  destruct (Em _ _ Qc) as (-> & Ec), (Em _ _ Qp) as (-> & Ep), (Em _ _ Qi) as (-> & Ei), (Em _ _ Qt) as (-> & Et).
  unfold app_rep in Qa. destruct (c_app hc4) as [[tl p]|] eqn:Eap; [contradiction|]. subst Ba. cbn [app] in O4.
  exists h4. split.
  { destruct hc4 as [u1 u2 u3 u4 u5]. cbn [c_config c_params c_app c_icc c_term] in *. now subst. }
  intros a. split.
  - intros Ha. split; [apply (owns_live h4 others a O4); exact Ha|].
    transitivity (load h3 a); [apply M4, Ha|]. transitivity (load h' a); [apply M23; unfold Z0; rewrite !in_app_iff; tauto|].
    apply M1. rewrite in_app_iff. tauto.
  - intros Ha (n & En). pose proof (O4 a) as O4a. unfold allocated in O4a. rewrite En in O4a.
    apply Ha. apply (count_occ_In Nat.eq_dec). unfold occ in O4a. lia.
Qed.

(** ** Example: an application with an AID and a PDOL that asks for one octet. *)
Definition ex_aidf : field := mkField 0x84 5 [0xA0;0;0;0;3] 0.
Definition ex_pdol : field := mkField 0x9F38 3 [0x9F;0x39;1] 0.
Definition ex_c : ctx := mkCtx true [] [] []
  (Some (mkApp ex_aidf [] 0 false [ex_aidf; ex_pdol], InApp)) [] [].
(** Node 0 belongs to somebody else; the application has nodes 1 and 2. *)
Definition ex_h : heap := [Some (mkNode (mkField 0xDF01 0 [] 0) None); Some (mkNode ex_aidf (Some 2%nat)); Some (mkNode ex_pdol None)].
Definition ex_hc : hctx := mkHC tlist_init tlist_init (Some (mkList (Some 1%nat) (Some 2%nat), 1%nat)) tlist_init tlist_init.
Example C167_start : ctx_rep ex_h ex_hc ex_c [0%nat].
Proof.
  exists [], [], [1%nat; 2%nat], [], []. split; [apply rep_init|]. split; [apply rep_init|]. split.
  - split; [|left; reflexivity]. split; [|reflexivity].
    apply (seg_cons ex_h 1%nat (mkNode ex_aidf (Some 2%nat)) [2%nat] [ex_pdol]); [reflexivity|].
    apply (seg_cons ex_h 2%nat (mkNode ex_pdol None) [] []); [reflexivity|]. apply seg_nil.
  - split; [apply rep_init|]. split; [apply rep_init|]. intros a. destruct a as [|[|[|[|a]]]]; reflexivity.
Qed.
(** A card whose GET PROCESSING OPTIONS and READ RECORD answer with these. *)
Definition ex_x (g r : list Z) : transport nat := mkTr
  (fun n _ => Ret (mkAns 0 [] 0x6A82 (S n))) (fun n _ => Ret (mkAns 0 [] 0x6A82 (S n)))
  (fun n _ _ => Ret (mkAns 0 r 0x9000 (S n))) (fun n _ => Ret (mkAns 0 g 0x9000 (S n))).
Definition lives (h : heap) : list nat := filter (fun a => (allocated h a =? 1)%nat) (seq 0 (length h)).
Definition g_ok : list Z := [0x77;10;0x82;2;0x19;0x80;0x94;4;8;1;1;0].
Definition r_ok : list Z := [0x70;12;0x5F;0x24;0;0x5A;1;9;0x8C;0;0x8D;0;0x57;0].
Definition r_twice : list Z := [0x70;12;0x5F;0x24;0;0x5A;1;9;0x8C;0;0x8D;0;0x5A;0].
Definition gb : list Z := repeat 0 255.
Example C167_ex : exists c1 h1 c2 h2 c3 h3 c4 h4 c5 h5 p,
  (* four terminal fields (3-6), AIP and AFL (7, 8) *)
  works_h (ex_x g_ok r_ok) gb 256 [Initiate 5] 0%nat ex_hc ex_h = Ret ([0], c1, h1, 1%nat) /\
  lives h1 = [0;1;2;3;4;5;6;7;8]%nat /\ c_icc c1 = mkList (Some 1%nat) (Some 8%nat) /\ c_app c1 = Some (tlist_init, 1%nat) /\
  (* five fields of the record *)
  works_h (ex_x g_ok r_ok) gb 256 [Initiate 5; ReadData] 0%nat ex_hc ex_h = Ret ([0; 0], c2, h2, 2%nat) /\
  lives h2 = [0;1;2;3;4;5;6;7;8;9;10;11;12;13]%nat /\
  (* a record that has a field twice: its five fields are released *)
  works_h (ex_x g_ok r_twice) gb 256 [Initiate 5; ReadData] 0%nat ex_hc ex_h = Ret ([0; CARD_ERROR], c3, h3, 2%nat) /\
  lives h3 = [0;1;2;3;4;5;6;7;8]%nat /\ length h3 = 14%nat /\
  (* no AFL: the AIP (7) is released though the pointer to it has been given out *)
  works_h (ex_x (firstn 6 (0x77 :: 4 :: skipn 2 g_ok)) r_ok) gb 256 [Initiate 5] 0%nat ex_hc ex_h = Ret ([CARD_ERROR], c4, h4, 1%nat) /\
  lives h4 = [0;1;2;3;4;5;6]%nat /\ c_icc c4 = tlist_init /\
  get_processing_options_h (ex_x (firstn 6 (0x77 :: 4 :: skipn 2 g_ok)) r_ok) 0%nat None ex_h tlist_init =
    Ret (TAL_GPO_FIELD_NOT_FOUND, ex_h ++ [None], tlist_init, Some 3%nat, p, 1%nat) /\
  (* a reset leaves the field of somebody else *)
  works_h (ex_x g_ok r_ok) gb 256 [Initiate 5; ReadData; ResetCtx] 0%nat ex_hc ex_h = Ret ([0; 0; 0], c5, h5, 2%nat) /\
  lives h5 = [0%nat] /\
  (* and C40: the AID is in the list that the second call releases *)
  works_h (ex_x g_ok r_ok) gb 256 [Initiate 5; Initiate 5] 0%nat ex_hc ex_h = UB.
Proof. do 11 eexists. repeat (split; [vm_compute; reflexivity|]). vm_compute; reflexivity. Qed.

Print Assumptions C167_gpo.
Print Assumptions C167_records.
Print Assumptions C167_initiate.
Print Assumptions C167_read.
Print Assumptions C167_history.
Print Assumptions C167_aid.
Print Assumptions C167_no_leak.
