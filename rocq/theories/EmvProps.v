(** Property theorems C38-C40, C58, C59, C70, C71, C104: driving a transaction. *)
From Coq Require Import Permutation Sorted.
From Verif Require Import Base BaseLemmas BerModel BerSpec TlvListModel TlvModel DolModel TlvSpec DolSpec DolProofs TtlModel TtlSpec FieldsModel FieldsSpec AppModel AppSpec
  TalModel TalSpec TalProofs AppProofs TalProps EmvModel EmvSpec EmvProofs EmvWire.

(** ** C38 *)
(** C38 is false: found by AID selection, an application with another DF name of the
    same length is put on the list although the terminal does not support it. *)
Theorem C38_all_supported_refuted : exists s c apps s',
  build_candidate_list ex_tr zeros17 9 s c [] = Ret (0, apps, s') /\ Forall wf_field (k_aids c) /\ ~ Forall (supported_by (k_aids c)) apps.
Proof.
  exists ([[0x6A;0x82]; [0x6F;7;0x84;5;0xB0;9;9;9;9;0x90;0]], []), (mkCtx true [] [mkField 0x9F06 5 [0xA0;0;0;0;3] 0] [] None [] []).
  do 2 eexists. split; [vm_compute; reflexivity|]. split.
  - constructor; [|constructor]. repeat split; cbn; try lia; repeat constructor; unfold is_byte; lia.
  - intro K. inversion K as [|? ? (g & [<-|[]] & [(_ & M)|(M & _)]) _]; subst; discriminate.
Qed.
Print Assumptions C38_all_supported_refuted.
(** C38.  On success the list is not empty and sorted; its applications are all
    supported, or all were returned by the card for a supported AID with the right
    length.  Missing: that those names match. *)
Theorem C38_candidates_partial : forall T (x : transport T), wf_transport x -> forall junk, length junk = 17%nat ->
  forall fuel s c r apps s', Forall wf_field (k_aids c) ->
  build_candidate_list x junk fuel s c [] = Ret (r, apps, s') ->
  (r = 0 \/ r = CARD_ERROR \/ r = CARD_BLOCKED \/ r = NOT_ACCEPTED) /\ (r = NOT_ACCEPTED -> apps = []) /\
  (r = 0 -> apps <> [] /\ StronglySorted prio_before apps /\
    (Forall (supported_by (k_aids c)) apps \/
     Forall (fun a => exists g data, In g (k_aids c) /\ selected x (f_val g) data /\ app_create_from_fci junk data = Ret (Some a) /\
       (Zlen (f_val g) = Zlen (f_val (a_aid a)) \/ f_flags g = 1)) apps)).
Proof. exact @candidates. Qed.
Print Assumptions C38_candidates_partial.
(** C38.  For cards that return DF names starting with the name selected all are
    supported. *)
Theorem C38_honest_card_partial : forall T (x : transport T), wf_transport x -> forall junk, length junk = 17%nat ->
  forall fuel s c apps s', Forall wf_field (k_aids c) -> Forall (fun g => f_flags g = 0 \/ f_flags g = 1) (k_aids c) -> honest x junk ->
  build_candidate_list x junk fuel s c [] = Ret (0, apps, s') -> Forall (supported_by (k_aids c)) apps.
Proof. exact @candidates_honest. Qed.
Print Assumptions C38_honest_card_partial.
(** Two applications found by AID, priorities 2 and 1. *)
Example C38_ex :
  match build_candidate_list ex_tr zeros17 9
    ([[0x6A;0x82]; [0x6F;12;0x84;5;0xA0;0;0;0;3;0xA5;3;0x87;1;2;0x90;0]; [0x6F;12;0x84;5;0xA0;0;0;0;4;0xA5;3;0x87;1;1;0x90;0]], [])
    (mkCtx true [] [mkField 0x9F06 5 [0xA0;0;0;0;3] 0; mkField 0x9F06 5 [0xA0;0;0;0;4] 0] [] None [] []) [] with
  | Ret (r, apps, _) => (r, map (fun a => (f_val (a_aid a), a_prio a)) apps) | _ => (1, []) end =
  (0, [([0xA0;0;0;0;4], 1); ([0xA0;0;0;0;3], 2)]).
Proof. vm_compute; reflexivity. Qed.

(** ** C39 *)
Theorem C39_all_or_nothing : forall T (x : transport T), wf_transport x -> forall rfuel s c r c' s',
  Forall wf_field (k_icc c) -> read_application_data x rfuel s c = Ret (r, c', s') ->
  (r <> 0 /\ c' = c) \/
  (r = 0 /\ exists afl es datas fs oda, first_with 0x94 (k_icc c) afl /\ f_val afl = flat_map afl_octets es /\ Forall afl_valid es /\
    reads x s (flat_map listed es) datas s' /\ records_give false (flat_map listed es) datas fs oda /\
    no_duplicates fs /\ incl mandatory (map f_tag fs) /\
    c' = mkCtx (k_ttl c) (k_config c) (k_aids c) (k_params c) (k_app c) (k_icc c ++ fs) (k_term c)).
Proof. exact (fun T x W => read_data_records x W zeros17 eq_refl). Qed.
Print Assumptions C39_all_or_nothing.
Theorem C39_accepted : forall T (x : transport T) rfuel s c s' afl tr fs,
  Forall wf_field (k_icc c) -> first_with 0x94 (k_icc c) afl ->
  read_afl_records x rfuel s (f_val afl) [] = Ret (tr, fs, s') -> tr = 0 \/ tr = TAL_ODA_RECORD_INVALID ->
  no_duplicates fs -> incl mandatory (map f_tag fs) ->
  read_application_data x rfuel s c = Ret (0, mkCtx (k_ttl c) (k_config c) (k_aids c) (k_params c) (k_app c) (k_icc c ++ fs) (k_term c), s').
Proof. exact (fun T x => read_data_complete x zeros17 eq_refl). Qed.
Print Assumptions C39_accepted.
(** What is reported: an error of the card, except if its AFL is empty. *)
Lemma parse_code fuel : forall itr l r l', tlv_parse_f fuel itr l = Ret (r, l') -> 0 <= r.
Proof.
  induction fuel as [|fuel IH]; intros itr l r l' E; [discriminate E|]. cbn [tlv_parse_f] in E. apply bind_Ret_inv in E as ([[q t] itr'] & _ & E).
  destruct (q <=? 0). { destruct (q <? 0); injection E as <- _; lia. } destruct t as [t|]; [|discriminate E].
  destruct (ber_is_constructed t); [|exact (IH _ _ _ _ E)]. apply bind_Ret_inv in E as ([e l1] & E1 & E). destruct (e =? 0); [exact (IH _ _ _ _ E)|].
  injection E as <- <-. exact (IH _ _ _ _ E1).
Qed.
Definition no_internal (r : Z) : Prop := r <> TAL_INTERNAL /\ r <> TAL_INVALID_PARAMETER.
Lemma sfi_code T (x : transport T) fuel : forall s e rec oda l r l' s', sfi_loop x fuel s e rec oda l = Ret (r, l', s') -> no_internal r.
Proof.
  induction fuel as [|fuel IH]; intros s e rec oda l r l' s' E; [discriminate E|]. cbn [sfi_loop] in E.
  destruct (_ <? rec). { destruct oda; injection E as <- _ _; split; discriminate. }
  apply bind_Ret_inv in E as (a & _ & E). destruct (negb (n_ret a =? 0)). { injection E as <- _ _; split; discriminate. }
  destruct (negb (n_sw a =? 0x9000)). { injection E as <- _ _; split; discriminate. }
  apply bind_Ret_inv in E as ([[q inv] l1] & Eq & E). destruct (negb (q =? 0)); [|exact (IH _ _ _ _ _ _ _ _ E)]. injection E as <- _ _.
  unfold sfi_record in Eq. apply bind_Ret_inv in Eq as (b0 & _ & Eq). destruct (negb (b0 =? 0x70)).
  { destruct (_ && _)%bool; injection Eq as <- _ _; split; discriminate. }
  apply bind_Ret_inv in Eq as (bad & _ & Eq). destruct bad. { injection Eq as <- _ _; split; discriminate. }
  apply bind_Ret_inv in Eq as ([z l2] & Ez & Eq). unfold tlv_parse in Ez. apply parse_code in Ez. destruct (Z.ltb_spec z 0); [lia|].
  destruct (0 <? z); injection Eq as <- _ _; split; discriminate.
Qed.
Lemma afl_code T (x : transport T) fuel : forall rf s itr oda l r l' s', afl_loop x fuel rf s itr oda l = Ret (r, l', s') -> no_internal r.
Proof.
  induction fuel as [|fuel IH]; intros rf s itr oda l r l' s' E; [discriminate E|]. cbn [afl_loop] in E.
  apply bind_Ret_inv in E as ([[q e] itr'] & _ & E). destruct (0 <? q).
  - destruct e as [e|]; [|discriminate E]. apply bind_Ret_inv in E as ([[z l1] s1] & Ez & E). destruct (z =? 0); [exact (IH _ _ _ _ _ _ _ _ E)|].
    destruct (z =? TAL_ODA_RECORD_INVALID); [exact (IH _ _ _ _ _ _ _ _ E)|]. injection E as <- _ _. exact (sfi_code _ _ _ _ _ _ _ _ _ _ _ Ez).
  - destruct (q <? 0); [|destruct oda]; injection E as <- _ _; split; discriminate.
Qed.
Theorem C39_outcome : forall T (x : transport T) rfuel s c r c' s',
  Forall wf_field (k_icc c) -> read_application_data x rfuel s c = Ret (r, c', s') ->
  (forall afl, first_with 0x94 (k_icc c) afl -> f_val afl <> [] -> r = 0 \/ r = CARD_ERROR) /\
  (forall afl, first_with 0x94 (k_icc c) afl -> f_val afl = [] -> r = EMV_INTERNAL) /\
  (absent 0x94 (k_icc c) -> r = CARD_ERROR).
Proof.
  intros T x rfuel s c r c' s' Wi E. unfold read_application_data in E. destruct (find_tag 0x94 (k_icc c)) as [afl|] eqn:Ef.
  2:{ injection E as <- _ _. split; [intros f F _; right; reflexivity|]. split; [|reflexivity]. intros f F _. apply find_tag_spec in F. rewrite F in Ef. discriminate Ef. }
  apply find_tag_spec in Ef. assert (Wf : wf_field afl) by (rewrite Forall_forall in Wi; apply Wi; eapply first_with_in; exact Ef).
  rewrite wf_sub in E by auto. cbn [bind] in E. apply bind_Ret_inv in E as ([[tr fs] s1] & Er & E).
  assert (U : forall f, first_with 0x94 (k_icc c) f -> f = afl).
  { intros f F. apply find_tag_spec in F. apply find_tag_spec in Ef. congruence. }
  split; [|split].
  - intros f F Ne. rewrite (U f F) in Ne. clear f F. unfold read_afl_records in Er. destruct (Nat.eqb_spec (length (f_val afl)) 0) as [Z0|Z0]; [destruct (f_val afl); [contradiction|discriminate Z0]|].
    assert (N : no_internal tr).
    { destruct (afl_itr_init (f_val afl)) as [q [itr|]] eqn:Ei; [exact (afl_code _ _ _ _ _ _ _ _ _ _ _ Er)|]. injection Er as <- _ _.
      unfold afl_itr_init, Zlen in Ei. destruct (Z.eqb_spec (Z.of_nat (length (f_val afl))) 0); [lia|]. destruct (negb _); [injection Ei as <-; split; discriminate|].
      destruct (_ >? _); [injection Ei as <-; split; discriminate|discriminate Ei]. }
    destruct N as [N1 N2]. apply Z.eqb_neq in N1, N2. rewrite N1, N2 in E. cbn [orb] in E.
    destruct (tr <? 0). { injection E as <- _ _. right. reflexivity. }
    repeat match type of E with (if ?b then _ else _) = _ => destruct b end; injection E as <- _ _; auto.
  - intros f F Ne. rewrite (U f F) in Ne. clear f F. rewrite Ne in Er. injection Er as <- _ _. injection E as <- _ _. reflexivity.
  - intros Ab. exfalso. destruct Ef as (pre & post & Eq & _ & H2). unfold absent in Ab. rewrite Eq in Ab. apply Forall_app in Ab. destruct Ab as [_ Ab]. inversion Ab; subst. congruence.
Qed.
Print Assumptions C39_outcome.
Definition ex_ctx : ctx := mkCtx true [] [] [] None [mkField 0x94 4 [8;1;1;0] 0] [].
Example C39_ex :
  read_application_data ex_tr 256 ([[0x70;13;0x5F;0x24;0;0x5A;1;9;0x8C;0;0x8D;0;0x57;1;1;0x90;0]], []) ex_ctx =
    Ret (0, mkCtx true [] [] [] None [mkField 0x94 4 [8;1;1;0] 0; mkField 0x5F24 0 [] 0; mkField 0x5A 1 [9] 0; mkField 0x8C 0 [] 0; mkField 0x8D 0 [] 0; mkField 0x57 1 [1] 0] [],
         ([], [[0;0xB2;1;0x0C;0]])) /\
  read_application_data ex_tr 256 ([[0x70;13;0x5F;0x24;0;0x5A;1;9;0x8C;0;0x8D;0;0x5A;1;1;0x90;0]], []) ex_ctx =
    Ret (CARD_ERROR, ex_ctx, ([], [[0;0xB2;1;0x0C;0]])).
Proof. vm_compute; auto. Qed.

(** ** C40 *)
Definition c40_app := mkApp (mkField 0x84 5 [0xA0;0;0;0;3] 0) [] 0 false [mkField 0x84 5 [0xA0;0;0;0;3] 0].
Definition c40_ctx := mkCtx true [] [] [] (Some (c40_app, InApp)) [] [].
Definition gbuf := repeat 0 255.
(** C40 is false. *)
Theorem C40_twice_refuted : exists s c pos c' s', k_app c = Some (c40_app, InApp) /\
  initiate ex_tr gbuf s c pos = Ret (0, c', s') /\ initiate ex_tr gbuf s' c' pos = UB.
Proof.
  exists ([[0x80;6;0x19;0x80;8;1;1;0;0x90;0]; [0x80;6;0x19;0x80;8;1;1;0;0x90;0]], []), c40_ctx, 5. do 2 eexists.
  split; [reflexivity|]. split; [vm_compute; reflexivity|]. vm_compute; reflexivity.
Qed.
Print Assumptions C40_twice_refuted.
(** C40.  After every successful call the next one uses the released AID. *)
Theorem C40_after_success_partial : forall T (x : transport T) buf s c pos c' s', initiate x buf s c pos = Ret (0, c', s') ->
  forall buf2 s2 pos2, initiate x buf2 s2 c' pos2 = UB.
Proof. exact @initiate_twice. Qed.
Print Assumptions C40_after_success_partial.
(** C40.  After a call that did not succeed the application is unchanged, so that C70
    applies to the next call.  Missing: a call after a successful one. *)
Theorem C40_after_failure_partial : forall T (x : transport T) buf s c pos r c' s' a, k_app c = Some (a, InApp) ->
  initiate x buf s c pos = Ret (r, c', s') -> r <> 0 -> k_app c' = Some (a, InApp) /\ k_icc c' = [].
Proof. exact @initiate_failed. Qed.
Print Assumptions C40_after_failure_partial.

(** ** C70 *)
Theorem C70_initiate : forall T (x : transport T), wf_transport x ->
  forall buf s c pos a, length buf = 255%nat -> is_byte pos -> k_app c = Some (a, InApp) ->
  wf_field (a_aid a) -> fields_ok (a_tlvs a) -> fields_ok (k_params c) -> fields_ok (k_config c) ->
  let aid := f_val (a_aid a) in
  match initiate x buf s c pos with
  | NoFuel => exists d, x_gpo x s d = NoFuel
  | UB => False
  | Ret (r, c', s') =>
    (k_ttl c', k_config c', k_aids c', k_params c', k_term c') = (k_ttl c, k_config c, k_aids c, k_params c, terminal_data pos aid) /\
    ((s' = s /\ r = CARD_ERROR /\ k_icc c' = [] /\ k_app c' = k_app c /\
       forall d, ~ gpo_command_data [k_params c; k_config c; terminal_data pos aid] (a_tlvs a) d) \/
     (exists d tr gpo p q, gpo_command_data [k_params c; k_config c; terminal_data pos aid] (a_tlvs a) d /\
       get_processing_options x s d [] = Ret (tr, gpo, p, q, s') /\
       ((tr = 0 /\ r = 0 /\ k_icc c' = a_tlvs a ++ gpo /\ exists b, k_app c' = Some (b, InIcc)) \/
        (tr <> 0 /\ r = gpo_outcome tr /\ k_icc c' = [] /\ k_app c' = k_app c))))
  end.
Proof. exact (fun T x W => initiate_spec x W zeros17 eq_refl). Qed.
Print Assumptions C70_initiate.
(** PDOL 9F1A 02, 9F39 01, 9F37 01: configuration, terminal data, missing. *)
Example C70_ex :
  let app_ := mkApp (mkField 0x84 5 [0xA0;0;0;0;3] 0) [] 0 false [mkField 0x84 5 [0xA0;0;0;0;3] 0; mkField 0x9F38 9 [0x9F;0x1A;2;0x9F;0x39;1;0x9F;0x37;1] 0] in
  match initiate ex_tr gbuf ([[0x69;0x85]], []) (mkCtx true [mkField 0x9F1A 2 [5;0x28] 0] [] [] (Some (app_, InApp)) [] []) 5 with
  | Ret (r, c', s') => (r, k_icc c', snd s') | _ => (0, [], []) end =
  (GPO_NOT_ACCEPTED, [], [[0x80;0xA8;0;0;6;0x83;4;5;0x28;5;0;0]]).
Proof. vm_compute; reflexivity. Qed.

(** ** C71 *)
Definition c71_app := mkApp (mkField 0x84 5 [0xA0;0;0;0;3] 0) [] 0 false [mkField 0x84 5 [0xA0;0;0;0;3] 0; mkField 0x94 4 [8;7;7;0] 0].
(** C71 is false: an AFL in the FCI takes precedence over the one of the response:
    record 7 is read instead of record 1. *)
Theorem C71_gpo_afl_refuted : exists s c c1 s1 r c2 rest log,
  initiate ex_tr gbuf s c 5 = Ret (0, c1, s1) /\
  fst s = [[0x80;6;0x19;0x80;8;1;1;0;0x90;0]; [0x6A;0x83]] /\
  read_application_data ex_tr 256 s1 c1 = Ret (r, c2, (rest, log)) /\
  In [0;0xB2;7;0x0C;0] log /\ ~ In [0;0xB2;1;0x0C;0] log.
Proof.
  exists ([[0x80;6;0x19;0x80;8;1;1;0;0x90;0]; [0x6A;0x83]], []), (mkCtx true [] [] [] (Some (c71_app, InApp)) [] []).
  do 6 eexists. split; [vm_compute; reflexivity|]. split; [reflexivity|]. split; [vm_compute; reflexivity|].
  split; [right; left; reflexivity|]. intros [H|[H|[]]]; discriminate.
Qed.
Print Assumptions C71_gpo_afl_refuted.
(** C71.  Unless the FCI has an AFL the AFL used is the one of the response.
    Missing: such FCIs. *)
Theorem C71_gpo_afl_partial : forall fci gpo f, absent 0x94 fci -> first_with 0x94 gpo f -> first_with 0x94 (fci ++ gpo) f.
Proof. exact icc_afl. Qed.
Print Assumptions C71_gpo_afl_partial.

(** ** C58 *)
Theorem C58_reset : forall c, exists c', ctx_reset c = (0, c') /\
  k_params c' = [] /\ k_icc c' = [] /\ k_term c' = [] /\ k_app c' = None /\
  k_ttl c' = k_ttl c /\ k_config c' = k_config c /\ k_aids c' = k_aids c.
Proof. intro c. eexists. split; [reflexivity|]. cbn. auto 10. Qed.
Print Assumptions C58_reset.
Theorem C58_clear : forall c, exists c', ctx_clear c = (0, c') /\
  k_params c' = [] /\ k_icc c' = [] /\ k_term c' = [] /\ k_app c' = None /\
  k_ttl c' = false /\ k_config c' = [] /\ k_aids c' = [].
Proof. intro c. eexists. split; [reflexivity|]. cbn. auto 10. Qed.
Print Assumptions C58_clear.
Example C58_ex : ctx_reset (mkCtx true [mkField 1 0 [] 0] [mkField 2 0 [] 0] [mkField 3 0 [] 0] (Some (c40_app, InIcc)) [mkField 4 0 [] 0] [mkField 5 0 [] 0]) =
  (0, mkCtx true [mkField 1 0 [] 0] [mkField 2 0 [] 0] [] None [] []).
Proof. reflexivity. Qed.

(** ** C59 *)
(** The application at the index is removed, whatever happens, and becomes the
    selected application if the card selects it; otherwise none is selected.  The
    only undefined behaviour is that of C64. *)
Theorem C59_select : forall T (x : transport T), wf_transport x -> forall junk, length junk = 17%nat ->
  forall s c pre a post, wf_field (a_aid a) ->
  match select_application x junk s c (pre ++ a :: post) (length pre) with
  | NoFuel => x_select x s (f_val (a_aid a)) = NoFuel
  | UB => exists n, x_select x s (f_val (a_aid a)) = Ret n /\ n_ret n = 0 /\ n_sw n = 0x9000 /\ n_data n = []
  | Ret (r, apps, c', s') =>
    apps = pre ++ post /\
    (k_ttl c', k_config c', k_aids c', k_params c', k_icc c', k_term c') = (k_ttl c, k_config c, k_aids c, k_params c, k_icc c, k_term c) /\
    ((16 < Zlen (f_val (a_aid a)) /\ s' = s /\ k_app c' = None /\ try_next (pre ++ post) r) \/
     (Zlen (f_val (a_aid a)) <= 16 /\ exists tr sel, select_app x junk s (f_val (a_aid a)) = Ret (tr, sel, s') /\
       ((tr = 0 /\ r = 0 /\ exists b, sel = Some b /\ k_app c' = Some (b, InApp) /\ f_val (a_aid b) = f_val (a_aid a)) \/
        (tr = TAL_CARD_BLOCKED /\ r = CARD_BLOCKED /\ k_app c' = None) \/
        (tr < 0 /\ tr <> TAL_CARD_BLOCKED /\ r = CARD_ERROR /\ k_app c' = None) \/
        (0 < tr /\ try_next (pre ++ post) r /\ k_app c' = None))))
  end.
Proof. exact @select_application_spec. Qed.
Print Assumptions C59_select.
Theorem C59_index : forall T (x : transport T) junk s c apps index, (length apps <= index)%nat ->
  exists c', select_application x junk s c apps index = Ret (EMV_INVALID_PARAMETER, apps, c', s) /\ k_app c' = None.
Proof. exact @select_application_index. Qed.
Print Assumptions C59_index.
Example C59_ex :
  let a n := mkApp (mkField 0x84 5 [0xA0;0;0;0;n] 0) [] 0 false [] in
  match select_application ex_tr zeros17 ([[0x6A;0x82]], []) ctx_init [a 1; a 2; a 3] 1 with
  | Ret (r, apps, c', _) => (r, apps, k_app c') | _ => (0, [], None) end = (TRY_AGAIN, [a 1; a 3], None) /\
  match select_application ex_tr zeros17 ([[0x6A;0x82]], []) ctx_init [a 1] 0 with
  | Ret (r, apps, c', _) => (r, apps, k_app c') | _ => (0, [], None) end = (NOT_ACCEPTED, [], None).
Proof. vm_compute; auto. Qed.

(** ** C104 *)
(** With a reader that accepts whole commands, for any card.  Building the candidate
    list sends nothing but SELECT of the directory and of configured AIDs, READ RECORD,
    and what continues them. *)
Theorem C104_candidates : forall S fuel (card : cardfn S) tjunk junk f s log c apps r apps' s' log', Forall wf_field (k_aids c) ->
  build_candidate_list (ttl_transport fuel (logged card) ModeApdu tjunk) junk f (s, log) c apps = Ret (r, apps', (s', log')) ->
  exists g, log' = log ++ g /\ sent (candidate_cmd (map f_val (k_aids c))) g.
Proof. exact @build_wire. Qed.
Print Assumptions C104_candidates.
(** Final selection: at most SELECT of the application chosen. *)
Theorem C104_select : forall S fuel (card : cardfn S) tjunk junk s log c apps index r apps' c' s' log',
  Forall (fun a => wf_field (a_aid a)) apps ->
  select_application (ttl_transport fuel (logged card) ModeApdu tjunk) junk (s, log) c apps index = Ret (r, apps', c', (s', log')) ->
  log' = log \/ exists a more, nth_error apps index = Some a /\ log' = log ++ select_cmd 0 (f_val (a_aid a)) :: more /\
    Forall (fun m => exists le, m = [0x00; 0xC0; 0x00; 0x00; le] \/ m = firstn 4 (select_cmd 0 (f_val (a_aid a))) ++ [le]) more.
Proof. exact @select_wire. Qed.
Print Assumptions C104_select.
(** Initiating: one GET PROCESSING OPTIONS with the data the PDOL asks for, or nothing
    and an error. *)
Theorem C104_initiate : forall S fuel (card : cardfn S) tjunk buf s log c pos a r c' s' log',
  respects_buffer card -> (forall s tx, bytes (snd (snd (card s tx)))) ->
  bytes tjunk -> length buf = 255%nat -> is_byte pos -> k_app c = Some (a, InApp) ->
  wf_field (a_aid a) -> fields_ok (a_tlvs a) -> fields_ok (k_params c) -> fields_ok (k_config c) ->
  initiate (ttl_transport fuel (logged card) ModeApdu tjunk) buf (s, log) c pos = Ret (r, c', (s', log')) ->
  (log' = log /\ r = CARD_ERROR) \/
  exists d more, gpo_command_data [k_params c; k_config c; terminal_data pos (f_val (a_aid a))] (a_tlvs a) d /\
    let d := match d with Some d => d | None => [0x83; 0x00] end in
    let cmd := [0x80; 0xA8; 0x00; 0x00; Zlen d] ++ d ++ [0x00] in
    log' = log ++ cmd :: more /\ Forall (fun m => exists le, m = [0x00; 0xC0; 0x00; 0x00; le] \/ m = firstn 4 cmd ++ [le]) more.
Proof. exact @initiate_wire. Qed.
Print Assumptions C104_initiate.
(** Reading the application's data: READ RECORD only. *)
Theorem C104_read : forall S fuel (card : cardfn S) tjunk rf s log c r c' s' log', Forall wf_field (k_icc c) ->
  read_application_data (ttl_transport fuel (logged card) ModeApdu tjunk) rf (s, log) c = Ret (r, c', (s', log')) ->
  exists g, log' = log ++ g /\ sent read_record_cmd g.
Proof. exact @read_data_wire. Qed.
Print Assumptions C104_read.
(** A directory that cannot be selected, then an AID with a chained response. *)
Example C104_ex :
  match build_candidate_list ex_tr zeros17 9
    ([[0x6A;0x82]; [0x61;0x09]; [0x6F;7;0x84;5;0xA0;0;0;0;3;0x90;0]], [])
    (mkCtx true [] [mkField 0x9F06 5 [0xA0;0;0;0;3] 0] [] None [] []) [] with
  | Ret (r, _, (_, log)) => (r, log) | _ => (1, []) end =
  (0, [select_cmd 0 pse_name; [0;0xA4;4;0;5;0xA0;0;0;0;3;0]; [0;0xC0;0;0;9]]).
Proof. vm_compute; reflexivity. Qed.
