(** C169: building a list of candidates, selecting from it and processing what was selected neither lose a field of
    an application nor release one twice.  Statements: properties.jsonl. *)
From Verif Require Import Base BaseLemmas BerModel TlvListModel TlvListProofs TlvModel DolModel TtlModel FieldsModel AppModel
  TalModel EmvModel OwnSpec OwnProofs HoldModel HoldSpec HoldProofs HoldProps CandModel CandSpec CandProofs.

(** An application made from an FCI: the fields that were allocated are its own; if none is made, nothing is left. *)
Theorem C169_from_fci junk others fci h : owns h others ->
  match app_create_from_fci junk fci with
  | Ret None => exists h', create_from_fci_f junk fci h = Ret (None, h') /\ owns h' others /\ mild h h' others
  | Ret (Some a) => exists ha h' addrs, create_from_fci_f junk fci h = Ret (Some ha, h') /\
      app_at h' addrs ha a /\ owns h' (addrs ++ others) /\ mild h h' others
  | UB => create_from_fci_f junk fci h = UB
  | NoFuel => create_from_fci_f junk fci h = NoFuel
  end.
Proof.
  intros H. pose proof (fci_create_step junk others h fci H) as B. unfold OwnSpec.in_step in B.
  destruct (app_create_from_fci junk fci) as [[a|]| |]; [| |exact B|exact B];
    destruct B as ([[ha|] h'] & E & R); cbn [relm] in R; try contradiction; [|eauto].
  destruct R as (A & R1 & R2 & R3). exists ha, h', A. auto.
Qed.
(** The same for an entry of the directory, whose FCI is only read. *)
Theorem C169_from_pse junk others pse pse_a ps entry h : rep h pse pse_a ps -> owns h (pse_a ++ others) ->
  match app_create_from_pse junk ps entry with
  | Ret None => exists h', create_from_pse_f junk pse entry h = Ret (None, h') /\
      owns h' (pse_a ++ others) /\ mild h h' (pse_a ++ others)
  | Ret (Some a) => exists ha h' addrs, create_from_pse_f junk pse entry h = Ret (Some ha, h') /\
      app_at h' addrs ha a /\ owns h' (addrs ++ pse_a ++ others) /\ mild h h' (pse_a ++ others)
  | UB => create_from_pse_f junk pse entry h = UB
  | NoFuel => create_from_pse_f junk pse entry h = NoFuel
  end.
Proof.
  intros R0 H. pose proof (pse_create_step junk pse_a others h pse ps entry R0 H) as B. unfold OwnSpec.in_step in B.
  destruct (app_create_from_pse junk ps entry) as [[a|]| |]; [| |exact B|exact B];
    destruct B as ([[ha|] h'] & E & R); cbn [relm] in R; try contradiction; [|eauto].
  destruct R as (A & R1 & R2 & R3). exists ha, h', A. auto.
Qed.

(** emv_build_candidate_list: the fields that are allocated afterwards are those of the candidates, and what was
    allocated elsewhere; the fields of the directory and of applications that were turned down are released. *)
Theorem C169_candidates {T} (x : transport T) junk others fuel s c h addrs has apps :
  apps_at h addrs has apps -> owns h (addrs ++ others) ->
  match build_candidate_list x junk fuel s c apps with
  | Ret (r, apps', s') => exists h' has' addrs',
      build_candidate_list_c x junk fuel s (k_aids c) h has = Ret (r, h', has', s') /\
      apps_at h' addrs' has' apps' /\ owns h' (addrs' ++ others) /\ mild h h' others
  | UB => build_candidate_list_c x junk fuel s (k_aids c) h has = UB
  | NoFuel => build_candidate_list_c x junk fuel s (k_aids c) h has = NoFuel
  end.
Proof.
  intros A H. assert (HH : has_apps others h h has apps) by (exists addrs; auto using mild_refl).
  pose proof (build_step x junk others fuel s c h h has apps HH) as B. unfold OwnSpec.in_step in B.
  destruct (build_candidate_list x junk fuel s c apps) as [[[r apps'] s']| |]; [|exact B|exact B].
  destruct B as ([[[r1 h1] has1] s1] & E & -> & -> & As & A1 & H1 & M1). exists h1, has1, As. auto.
Qed.

(** emv_select_application: the application selected before and the one that leaves the list are released. *)
Theorem C169_selection {T} (x : transport T) junk others s c hc h has apps index :
  all_rep h hc has c apps others ->
  match select_application x junk s c apps index with
  | Ret (r, apps', c', s') => exists hc' h' has',
      select_application_c x junk s hc h has index = Ret (r, hc', h', has', s') /\
      all_rep h' hc' has' c' apps' others /\ mild h h' others
  | UB => select_application_c x junk s hc h has index = UB
  | NoFuel => select_application_c x junk s hc h has index = NoFuel
  end.
Proof.
  intros A. pose proof (select_step x junk others s c hc h has apps index A) as B. unfold OwnSpec.in_step in B.
  destruct (select_application x junk s c apps index) as [[[[r apps'] c'] s']| |]; [|exact B|exact B].
  destruct B as ([[[[r1 hc1] h1] has1] s1] & E & -> & -> & A1 & M1). eauto 8.
Qed.

(** Any history of building, selecting, processing, reading, resetting and clearing. *)
Theorem C169_history {T} (x : transport T) junk others buf fuel os s c hc h has apps :
  all_rep h hc has c apps others ->
  match deeds x junk buf fuel os s c apps with
  | Ret (rs, c', apps', s') => exists hc' h' has',
      deeds_c x junk buf fuel (k_aids c) os s hc h has = Ret (rs, hc', h', has', s') /\
      all_rep h' hc' has' c' apps' others /\ mild h h' others
  | UB => deeds_c x junk buf fuel (k_aids c) os s hc h has = UB
  | NoFuel => deeds_c x junk buf fuel (k_aids c) os s hc h has = NoFuel
  end.
Proof.
  intros A. pose proof (deeds_step x junk others buf fuel (k_aids c) os s c hc h has apps A eq_refl) as B. unfold OwnSpec.in_step in B.
  destruct (deeds x junk buf fuel os s c apps) as [[[[r c'] apps'] s']| |]; [|exact B|exact B].
  destruct B as ([[[[r1 hc1] h1] has1] s1] & E & -> & -> & A1 & M1). eauto 8.
Qed.

(** The [aid] of every candidate is, after any history, at a field that is allocated and holds its AID. *)
Theorem C169_aids {T} (x : transport T) junk others buf fuel os s c hc h has apps rs hc' h' has' s' :
  all_rep h hc has c apps others ->
  deeds_c x junk buf fuel (k_aids c) os s hc h has = Ret (rs, hc', h', has', s') ->
  exists c' apps', deeds x junk buf fuel os s c apps = Ret (rs, c', apps', s') /\
    Forall2 (fun ha a => exists n, load h' (ha_aid ha) = Ret n /\ n_field n = a_aid a /\ ha_prio ha = a_prio a) has' apps'.
Proof.
  intros A E. pose proof (C169_history x junk others buf fuel os s c hc h has apps A) as B.
  destruct (deeds x junk buf fuel os s c apps) as [[[[rs1 c1] apps1] s1]| |]; [|rewrite E in B; discriminate|rewrite E in B; discriminate].
  destruct B as (hc1 & h1 & has1 & E1 & (As & A1 & _) & _). rewrite E in E1. injection E1 as <- <- <- <- <-.
  exists c1, apps1. split; [reflexivity|]. clear E. induction A1 as [|B ha a Bs hs aps HB H IH]; constructor; [|exact IH].
  destruct (apps_load _ _ _ _ HB) as (n & En & Ef). exists n. split; [exact En|]. split; [exact Ef|]. apply HB.
Qed.

(** After any history, clearing the list and the context releases every field made since and every field they had. *)
Theorem C169_no_leak {T} (x : transport T) junk others buf fuel os s c hc h has apps aids aids_a aids_v rs hc' h' has' s' :
  all_rep h hc has c apps (aids_a ++ others) -> rep h aids aids_a aids_v ->
  deeds_c x junk buf fuel (k_aids c) os s hc h has = Ret (rs, hc', h', has', s') ->
  exists h1 h2, free_all_f h' has' = Ret h1 /\
    clear_h hc' aids h1 = Ret (0, mkHC tlist_init tlist_init None tlist_init tlist_init, tlist_init, h2) /\
    forall a, (In a others -> is_live h2 a /\ load h2 a = load h a) /\ (~ In a others -> ~ is_live h2 a).
Proof.
  intros A Rs E. pose proof (C169_history x junk (aids_a ++ others) buf fuel os s c hc h has apps A) as B.
  destruct (deeds x junk buf fuel os s c apps) as [[[[rs1 c1] apps1] s1]| |]; [|rewrite E in B; discriminate|rewrite E in B; discriminate].
  destruct B as (hc1 & h1 & has1 & E1 & (As & A1 & C1) & M1). rewrite E in E1. injection E1 as <- <- <- <- <-.
  apply ctx_split in C1 as (K & HK & Hw).
  assert (Hw1 : owns h' (As ++ K ++ aids_a ++ others)) by own (K ++ As ++ aids_a ++ others).
  destruct (t_free_all h' As has' apps1 A1 h' (K ++ aids_a ++ others) (mild_refl _ _) Hw1) as (h3 & E3 & H3 & M3).
  assert (C3 : ctx_rep h3 hc' c1 (aids_a ++ others)).
  { apply ctx_split. exists K. split; [|exact H3]. eapply part_mild; [exact HK|exact M3|incls]. }
  assert (M03 : mild h h3 (aids_a ++ others)).
  { eapply mild_trans; [exact M1|]. eapply mild_incl; [exact M3|incls]. }
  assert (Rs3 : rep h3 aids aids_a aids_v) by (eapply rep_mild; [exact Rs|exact M03|incls]).
  destruct (C167_no_leak x others buf fuel [] s' c1 hc' h3 aids aids_a aids_v [] hc' h3 s' C3 Rs3 eq_refl) as (h4 & E4 & L4).
  exists h3, h4. split; [exact E3|]. split; [exact E4|]. intros a. destruct (L4 a) as (L1 & L2). split; [|exact L2].
  intros Ha. destruct (L1 Ha) as (L3 & L5). split; [exact L3|]. rewrite L5. apply M03, in_or_app. auto.
Qed.

(** ** Example: a directory with one record of three entries: supported, not supported, and without an AID. *)
Definition ea1 : list Z := [0xA0;0;0;0;3].
Definition ea2 : list Z := [0xA0;0;0;0;9].
Definition e_entry (v : list Z) : list Z := 0x61 :: Zlen v :: v.
Definition e_rec : list Z :=
  let v := e_entry (0x4F :: 5 :: ea1 ++ [0x50;1;0x41]) ++ e_entry (0x4F :: 5 :: ea2) ++ e_entry [0x50;1;0x42] in 0x70 :: Zlen v :: v.
Definition e_fci (aid : list Z) : list Z := let v := 0x84 :: 5 :: aid ++ [0xA5;0] in 0x6F :: Zlen v :: v.
Definition e_card (answer : list Z -> list Z) : transport nat := mkTr
  (fun n name => Ret (if list_eq_dec Z.eq_dec name EMV_PSE then mkAns 0 [0x6F;8;0x84;1;0x31;0xA5;3;0x88;1;1] 0x9000 (S n)
                      else mkAns 0 (answer name) 0x9000 (S n)))
  (fun n _ => Ret (mkAns 0 [] 0x6A82 (S n)))
  (fun n _ rec => Ret (if rec =? 1 then mkAns 0 e_rec 0x9000 (S n) else mkAns 0 [] 0x6A83 (S n)))
  (fun n _ => Ret (mkAns 0 g_ok 0x9000 (S n))).
Definition e_c : ctx := mkCtx true [] [mkField 0x9F06 5 ea1 0] [] None [] [].
Definition e_hc : hctx := mkHC tlist_init tlist_init None tlist_init tlist_init.
(** Node 0 belongs to somebody else. *)
Definition e_h : heap := [Some (mkNode (mkField 0xDF01 0 [] 0) None)].
Definition ej : list Z := repeat 0 17.
Definition e_run (answer : list Z -> list Z) (os : list deed) :=
  match deeds_c (e_card answer) ej gb 300 (k_aids e_c) os 0%nat e_hc e_h [] with
  | Ret (rs, c, h, has, s) => Some (rs, length h, lives h, map ha_aid has, c_app c)
  | _ => None
  end.
Example C169_start : all_rep e_h e_hc [] e_c [] [0%nat].
Proof.
  exists []. split; [constructor|]. exists [], [], [], [], []. split; [apply rep_init|]. split; [apply rep_init|]. split; [reflexivity|].
  split; [apply rep_init|]. split; [apply rep_init|]. intros a. destruct a as [|[|a]]; reflexivity.
Qed.
Example C169_ex :
  (* the two fields of the FCI (1, 2) and those of the entries turned down (5, 6) are released *)
  e_run e_fci [DBuild] = Some ([0], 7%nat, [0;3;4]%nat, [3%nat], None) /\
  (* the candidate is released, the selected application has a field of its own *)
  e_run e_fci [DBuild; DSelect 0] = Some ([0; 0], 8%nat, [0;7]%nat, [], Some (mkList (Some 7%nat) (Some 7%nat), 7%nat)) /\
  (* the card answers with another AID *)
  e_run (fun _ => e_fci ea2) [DBuild; DSelect 0] = Some ([0; NOT_ACCEPTED], 8%nat, [0%nat], [], None) /\
  (* two candidates, one after the other *)
  e_run e_fci [DBuild; DBuild; DSelect 1; DSelect 0] =
    Some ([0; 0; 0; 0], 15%nat, [0;14]%nat, [], Some (mkList (Some 14%nat) (Some 14%nat), 14%nat)) /\
  (* an index that is out of range *)
  e_run e_fci [DBuild; DSelect 3] = Some ([0; EMV_INVALID_PARAMETER], 7%nat, [0;3;4]%nat, [3%nat], None) /\
  (* a whole transaction *)
  e_run e_fci [DBuild; DBuild; DSelect 1; DJob (Initiate 5); DClearList; DJob ResetCtx] =
    Some ([0; 0; 0; 0; 0; 0], 20%nat, [0%nat], [], None).
Proof. repeat (split; [vm_compute; reflexivity|]). vm_compute; reflexivity. Qed.

Print Assumptions C169_from_fci.
Print Assumptions C169_from_pse.
Print Assumptions C169_candidates.
Print Assumptions C169_selection.
Print Assumptions C169_history.
Print Assumptions C169_aids.
Print Assumptions C169_no_leak.
