(** Proofs about [EmvModel]. *)
From Coq Require Import Permutation Sorted.
From Verif Require Import Base BaseLemmas BerModel BerSpec BerProofs TlvListModel TlvModel TlvSpec TlvProofs DolModel DolSpec DolProofs TtlModel
  FieldsModel FieldsSpec AppModel AppSpec AppProofs TalModel TalSpec TalProofs EmvModel EmvSpec.

(** ** Sorting sequences *)
Lemma insert_perm a l : Permutation (insert_priority a l) (a :: l).
Proof.
  induction l as [|d r IH]; cbn [insert_priority]; [auto|]. destruct (_ =? 0); [auto|]. destruct (_ && _)%bool; [auto|].
  rewrite IH. constructor.
Qed.
Lemma sort_acc l : forall acc, Permutation (fold_left (fun d a => insert_priority a d) l acc) (l ++ acc).
Proof.
  induction l as [|a l IH]; intro acc; cbn [fold_left app]; [auto|]. rewrite IH, insert_perm. symmetry. apply Permutation_middle.
Qed.
Lemma sort_perm l : Permutation (sort_priority l) l.
Proof. unfold sort_priority. rewrite sort_acc. now rewrite app_nil_r. Qed.
Lemma insert_sorted a l : 0 <= a_prio a -> Forall (fun b => 0 <= a_prio b) l -> StronglySorted prio_before l -> StronglySorted prio_before (insert_priority a l).
Proof.
  intros Ha Hl Hs. induction Hs as [|d r Hs IH Hd]; cbn [insert_priority]; [repeat constructor|].
  inversion Hl as [|? ? Pd Pr]; subst. unfold prio_before in *.
  destruct (Z.eqb_spec (a_prio d) 0) as [E0|E0].
  - constructor; [constructor; auto|]. constructor; [auto|]. eapply Forall_impl; [|exact Hd]. cbv beta. intros b Hb. left. lia.
  - destruct (Z.eqb_spec (a_prio a) 0) as [A0|A0]; cbn [negb andb].
    + constructor; [auto|]. rewrite Forall_forall. intros b Hb. apply (Permutation_in _ (insert_perm a r)) in Hb. cbn [In] in Hb.
      destruct Hb as [<-|Hb]; [lia|]. rewrite Forall_forall in Hd. auto.
    + destruct (Z.ltb_spec (a_prio a) (a_prio d)).
      * constructor; [constructor; auto|]. constructor; [lia|]. eapply Forall_impl; [|exact Hd]. cbv beta. intros b Hb. lia.
      * constructor; [auto|]. rewrite Forall_forall. intros b Hb. apply (Permutation_in _ (insert_perm a r)) in Hb. cbn [In] in Hb.
        destruct Hb as [<-|Hb]; [lia|]. rewrite Forall_forall in Hd. auto.
Qed.
Lemma sort_sorted l : Forall (fun b => 0 <= a_prio b) l -> StronglySorted prio_before (sort_priority l).
Proof.
  intro H. unfold sort_priority. assert (K : forall acc, Forall (fun b => 0 <= a_prio b) acc -> StronglySorted prio_before acc ->
    StronglySorted prio_before (fold_left (fun d a => insert_priority a d) l acc)).
  { induction H as [|a l Ha Hl IH]; intros acc Hacc Hs; cbn [fold_left]; [auto|]. apply IH.
    - rewrite Forall_forall in *. intros b Hb. apply (Permutation_in _ (insert_perm a acc)) in Hb. cbn [In] in Hb. destruct Hb as [<-|Hb]; auto.
    - now apply insert_sorted. }
  apply K; constructor.
Qed.
Lemma build_prio junk pse tag tlvs a : app_build junk pse tag tlvs = Ret (Some a) -> 0 <= a_prio a.
Proof.
  unfold app_build. destruct (find_tag tag tlvs) as [aid|]; [|discriminate]. intro E. apply bind_Ret_inv in E as ([r name] & _ & E).
  destruct (negb _); [discriminate|]. apply bind_Ret_inv in E as ([p conf] & Ep & E). injection E as <-. cbn [a_prio].
  unfold extract_priority in Ep. destruct (find_tag 0x87 tlvs) as [t|]; [|injection Ep as <- _; lia].
  destruct (_ <? 1); [injection Ep as <- _; lia|]. apply bind_Ret_inv in Ep as (v & _ & Ep). injection Ep as <- _. apply Z.land_nonneg. lia.
Qed.
Lemma fci_prio junk fci a : app_create_from_fci junk fci = Ret (Some a) -> 0 <= a_prio a.
Proof.
  unfold app_create_from_fci. intro E. apply bind_Ret_inv in E as ([r t] & _ & E). destruct (negb _); [discriminate|].
  destruct t as [t|]; [|discriminate]. destruct (negb _); [discriminate|]. apply bind_Ret_inv in E as ([r2 tlvs] & _ & E).
  destruct (negb _); [discriminate|]. now apply build_prio in E.
Qed.
Lemma pse_prio junk pse e a : app_create_from_pse junk pse e = Ret (Some a) -> 0 <= a_prio a.
Proof.
  unfold app_create_from_pse. intro E. apply bind_Ret_inv in E as ([r tlvs] & _ & E).
  destruct (negb _); [discriminate|]. now apply build_prio in E.
Qed.
Lemma record_apps_supported junk pse supported rec l : record_apps junk pse supported rec l ->
  Forall (fun a => supported_by supported a /\ 0 <= a_prio a) l.
Proof.
  intros [p t trail ps ts rest ls _ _ _ _ _ Fe|data _|sw data _]; [|constructor|constructor].
  induction Fe as [|t0 l0 ts ls He Fe IH]; cbn [concat]; [constructor|]. apply Forall_app. split; [|exact IH].
  destruct He as [|_ _|a _ _ _|a g _ Ec Ig Hm]; constructor; [|constructor]. split; [exists g; auto|]. now apply pse_prio in Ec.
Qed.
Lemma in_sources_in sources tag f : in_sources sources tag f -> exists src, In src sources /\ In f src.
Proof.
  intros (before & src & after & pre & post & -> & _ & -> & _). exists (pre ++ f :: post).
  split; apply in_or_app; right; now left.
Qed.
Lemma bytes_zeros n : bytes (repeat 0 n).
Proof. induction n; cbn [repeat]; [constructor|]. apply bytes_cons; [unfold is_byte; lia|auto]. Qed.
Lemma entry_bytes sources e v : Forall (Forall (fun f => bytes (f_val f))) sources -> entry_data sources e v -> bytes v.
Proof.
  intros Hs He. assert (K : forall tag f, in_sources sources tag f -> bytes (f_val f)).
  { intros tag f Hf. apply in_sources_in in Hf as (src & I1 & I2). rewrite Forall_forall in Hs. specialize (Hs src I1). rewrite Forall_forall in Hs. auto. }
  destruct He as [tag n _|tag n f Hf _|tag n f a b Hf _ Ev _ _|tag n f a b Hf _ Ev _ _|tag n f k Hf _ _ _|tag n f k Hf _ _ _].
  - apply bytes_zeros.
  - eauto.
  - apply K in Hf. rewrite Ev in Hf. now apply bytes_app in Hf.
  - apply K in Hf. rewrite Ev in Hf. now apply bytes_app in Hf.
  - apply bytes_app_intro; [apply bytes_zeros|eauto].
  - apply bytes_app_intro; [eauto|apply bytes_zeros].
Qed.
Section Emv.
Context {T : Type} (x : transport T) (W : wf_transport x) (junk : list Z) (Lj : length junk = 17%nat).

Lemma read_pse_supported fuel s supported r apps s' : Forall wf_field supported ->
  read_pse x junk fuel s supported [] = Ret (r, apps, s') -> Forall (fun a => supported_by supported a /\ 0 <= a_prio a) apps.
Proof.
  intros Ws E. destruct (Z.eq_dec r 0) as [->|N]; [|rewrite (read_pse_empty x junk fuel s supported r apps s' E N); constructor].
  unfold read_pse in E. apply bind_Ret_inv in E as (a & Ea & E).
  destruct (Z.eqb_spec (n_ret a) 0) as [R0|R0]; cbn [negb] in E; [|discriminate].
  destruct (_ =? _); [discriminate|]. destruct (_ =? _); [discriminate|]. destruct (_ =? _); [discriminate|].
  destruct (negb _); [discriminate|].
  pose proof W as (W1 & _). specialize (W1 s EMV_PSE pse_bytes). rewrite Ea in W1. destruct (W1 R0) as [Bd Ld].
  pose proof (small256 _ Ld) as Sd. destruct (parse_any (n_data a) [] Bd Sd) as (r1 & pse & Ep & Hr & Ff & _). cbn [app] in Ep.
  rewrite Ep in E. cbn [bind] in E. apply bind_Ret_inv in E as ([[r2 apps2] s2] & E2 & E). injection E as -> <- ->. cbn [Z.eqb].
  destruct (r1 <? 0); [discriminate|]. destruct (find_tag 0x88 pse) as [f|] eqn:Ef; [|discriminate].
  destruct (negb _); [discriminate|]. apply bind_Ret_inv in E2 as (sfi & Es & E2).
  assert (Wp : Forall wf_field pse) by (eapply Forall_impl; [|exact Ff]; intros g; now apply field_of_wf).
  assert (Bs : is_byte sfi).
  { apply find_tag_spec in Ef. assert (Wf : wf_field f) by (rewrite Forall_forall in Wp; apply Wp; eapply first_with_in; exact Ef).
    destruct Wf as (_ & Bf & _). eapply rd_byte; eauto. }
  pose proof (pse_loop_spec x W junk Lj supported Ws pse sfi Wp Bs fuel (n_st a) 1 [] ltac:(unfold is_byte; lia)) as K.
  rewrite E2 in K. destruct K as [(_ & recs & ls & _ & Fr & ->)|(K & _)]; [|discriminate]. cbn [app]. clear -Fr.
  induction Fr as [|rec l recs ls Hr Fr IH]; cbn [concat]; [constructor|]. apply Forall_app. split; [|exact IH]. now apply record_apps_supported in Hr.
Qed.

(** ** The candidate list *)
Lemma candidates fuel s c r apps s' : Forall wf_field (k_aids c) ->
  build_candidate_list x junk fuel s c [] = Ret (r, apps, s') ->
  (r = 0 \/ r = CARD_ERROR \/ r = CARD_BLOCKED \/ r = NOT_ACCEPTED) /\ (r = NOT_ACCEPTED -> apps = []) /\
  (r = 0 -> apps <> [] /\ StronglySorted prio_before apps /\
    (Forall (supported_by (k_aids c)) apps \/
     Forall (fun a => exists g data, In g (k_aids c) /\ selected x (f_val g) data /\ app_create_from_fci junk data = Ret (Some a) /\
       (Zlen (f_val g) = Zlen (f_val (a_aid a)) \/ f_flags g = 1)) apps)).
Proof.
  intros Ws E. unfold build_candidate_list in E. apply bind_Ret_inv in E as ([[r1 apps1] s1] & E1 & E).
  pose proof (read_pse_supported _ _ _ _ _ _ Ws E1) as F1.
  assert (Cc : forall q, (if q =? TAL_CARD_BLOCKED then CARD_BLOCKED else CARD_ERROR) = CARD_ERROR \/ (if q =? TAL_CARD_BLOCKED then CARD_BLOCKED else CARD_ERROR) = CARD_BLOCKED) by (intro q; destruct (q =? TAL_CARD_BLOCKED); [right|left]; reflexivity).
  destruct (r1 <? 0).
  { injection E as <- <- <-. destruct (Cc r1) as [-> | ->]; unfold CARD_ERROR, CARD_BLOCKED, NOT_ACCEPTED; repeat split; auto; discriminate. }
  apply bind_Ret_inv in E as ([[r2 apps2] s2] & E2 & E).
  destruct (Z.eqb_spec r2 0) as [R2|R2]; cbn [negb] in E.
  2:{ injection E as <- <- <-. destruct (Cc r2) as [-> | ->]; unfold CARD_ERROR, CARD_BLOCKED, NOT_ACCEPTED; repeat split; auto; discriminate. }
  assert (K : Forall (fun a => 0 <= a_prio a) apps2 /\ (Forall (supported_by (k_aids c)) apps2 \/
     Forall (fun a => exists g data, In g (k_aids c) /\ selected x (f_val g) data /\ app_create_from_fci junk data = Ret (Some a) /\
       (Zlen (f_val g) = Zlen (f_val (a_aid a)) \/ f_flags g = 1)) apps2)).
  { destruct apps1 as [|a1 apps1].
    - apply (find_loop_sound x W junk Lj) in E2; auto. destruct E2 as (new & -> & Fn). cbn [app]. split; [|auto].
      eapply Forall_impl; [|exact Fn]. intros a (g & data & _ & _ & Ec & _). now apply fci_prio in Ec.
    - injection E2 as <- <- <-. split; [|left]; (eapply Forall_impl; [|exact F1]); cbv beta; tauto. }
  destruct K as [Kp Km]. destruct apps2 as [|a2 apps2].
  { injection E as <- <- <-. unfold NOT_ACCEPTED; repeat split; auto; discriminate. }
  injection E as <- <- <-. split; [auto|]. split; [discriminate|]. intros _.
  pose proof (sort_perm (a2 :: apps2)) as Pm. split.
  { intro Q. rewrite Q in Pm. apply Permutation_nil in Pm. discriminate. }
  split; [now apply sort_sorted|].
  destruct Km as [Km|Km]; [left|right]; (rewrite Forall_forall in *; intros a Ia; apply Km; eapply Permutation_in; [exact Pm|exact Ia]).
Qed.
Lemma candidates_honest fuel s c apps s' : Forall wf_field (k_aids c) -> Forall (fun g => f_flags g = 0 \/ f_flags g = 1) (k_aids c) -> honest x junk ->
  build_candidate_list x junk fuel s c [] = Ret (0, apps, s') -> Forall (supported_by (k_aids c)) apps.
Proof.
  intros Ws Fl Ho E. destruct (candidates _ _ _ _ _ _ Ws E) as (_ & _ & K). destruct (K eq_refl) as (_ & _ & [Q|Q]); [exact Q|].
  eapply Forall_impl; [|exact Q]. intros a (g & data & Ig & Sel & Ec & Hl). exists g. split; [exact Ig|].
  destruct (Ho _ _ _ Sel Ec) as (rest & Er). rewrite Forall_forall in Fl. destruct (Fl g Ig) as [F0|F1].
  - left. split; [auto|]. destruct Hl as [Hl|Hl]; [|congruence]. rewrite Er in *. rewrite Zlen_app in Hl.
    destruct rest; [now rewrite app_nil_r|]. unfold Zlen in Hl. cbn [length] in Hl. lia.
  - right. split; [auto|]. eauto.
Qed.

(** ** Final selection *)
Lemma try_again_next l : try_next l (try_again l).
Proof. destruct l; constructor. Qed.
Lemma select_application_spec s c pre a post : wf_field (a_aid a) ->
  match select_application x junk s c (pre ++ a :: post) (length pre) with
  | NoFuel => x_select x s (f_val (a_aid a)) = NoFuel
  | UB => exists n, x_select x s (f_val (a_aid a)) = Ret n /\ n_ret n = 0 /\ n_sw n = 0x9000 /\ n_data n = []
  | Ret (r, apps, c', s') =>
    apps = pre ++ post /\
    (k_ttl c', k_config c', k_aids c', k_params c', k_icc c', k_term c') = (k_ttl c, k_config c, k_aids c, k_params c, k_icc c, k_term c) /\
    ((16 < Zlen (f_val (a_aid a)) /\ s' = s /\ k_app c' = None /\ try_next (pre ++ post) r) \/
     (Zlen (f_val (a_aid a)) <= 16 /\ exists tr sel, select_app x junk s (f_val (a_aid a)) = Ret (tr, sel, s') /\
       ((tr = 0 /\ r = 0 /\ exists b, sel = Some b /\ k_app c' = Some (b, InApp) /\ f_val (a_aid b) = f_val (a_aid a)) \/
        (tr = TAL_CARD_BLOCKED /\ r = CARD_BLOCKED /\ k_app c' = None) \/
        (tr < 0 /\ tr <> TAL_CARD_BLOCKED /\ r = CARD_ERROR /\ k_app c' = None) \/
        (0 < tr /\ try_next (pre ++ post) r /\ k_app c' = None))))
  end.
Proof.
  intros (La & Ba & Sa). unfold select_application, remove_nth.
  rewrite nth_error_app2, Nat.sub_diag by lia. cbn [nth_error].
  assert (Rm : firstn (length pre) (pre ++ a :: post) ++ skipn (S (length pre)) (pre ++ a :: post) = pre ++ post).
  { rewrite firstn_app, Nat.sub_diag, firstn_all. cbn [firstn]. rewrite app_nil_r. f_equal.
    rewrite skipn_app. replace (S (length pre) - length pre)%nat with 1%nat by lia. rewrite skipn_all2 by lia. reflexivity. }
  rewrite Rm, La. destruct (Z.ltb_spec 16 (Zlen (f_val (a_aid a)))) as [L16|L16].
  { split; [reflexivity|]. split; [reflexivity|]. left. auto using try_again_next. }
  rewrite <- La. rewrite wf_sub by (repeat split; auto). cbn [bind].
  pose proof (select_app_spec x W junk Lj s (f_val (a_aid a)) Ba) as K.
  destruct (select_app x junk s (f_val (a_aid a))) as [[[tr sel] s1]| |] eqn:Es; [| |exact K]; cbn [bind].
  2:{ destruct K as (_ & n & K). exists n. exact K. }
  destruct (Z.eqb_spec tr 0) as [T0|T0].
  { split; [reflexivity|]. split; [reflexivity|]. right. split; [lia|]. exists tr, sel. split; [reflexivity|]. left. split; [auto|]. split; [auto|].
    destruct K as [(_ & K & _)|(_ & n & _ & _ & [(_ & K & _)|[(_ & _ & K & _)|[(_ & _ & _ & K & _)|(_ & _ & ap & _ & [(_ & K & _)|(K1 & _ & K2)])]]])];
      try (rewrite K in T0; discriminate).
    - exfalso. rewrite T0 in K. inversion K as [q Iq|]; subst. cbn in Iq. intuition discriminate.
    - exists ap. rewrite K2. auto. }
  destruct (Z.ltb_spec tr 0) as [Tn|Tn].
  - split; [reflexivity|]. split; [reflexivity|]. right. split; [lia|]. exists tr, sel. split; [reflexivity|].
    destruct (Z.eqb_spec tr TAL_CARD_BLOCKED); [right; left|right; right; left]; auto.
  - split; [reflexivity|]. split; [reflexivity|]. right. split; [lia|]. exists tr, sel. split; [reflexivity|]. right; right; right. split; [lia|]. auto using try_again_next.
Qed.
Lemma select_application_index s c apps index : (length apps <= index)%nat ->
  exists c', select_application x junk s c apps index = Ret (EMV_INVALID_PARAMETER, apps, c', s) /\ k_app c' = None.
Proof.
  intro L. unfold select_application, remove_nth. rewrite (proj2 (nth_error_None apps index) L). eexists. split; reflexivity.
Qed.

(** ** GET PROCESSING OPTIONS data *)
Lemma gpo_data_spec buf sources fields : length buf = 255%nat -> Forall wf_field fields -> Forall (fun f => Zlen (f_val f) < 16777216) fields ->
  wf_sources sources -> sources <> [] ->
  (exists d, gpo_data buf sources (find_tag 0x9F38 fields) = Ret (inl d) /\ gpo_command_data sources fields d) \/
  (gpo_data buf sources (find_tag 0x9F38 fields) = Ret (inr CARD_ERROR) /\ forall d, ~ gpo_command_data sources fields d).
Proof.
  intros Lb Wf Sz Ws Ns. destruct (find_tag 0x9F38 fields) as [f|] eqn:Ef; cbn [gpo_data].
  2:{ left. exists None. split; [reflexivity|]. constructor. now apply find_tag_none. }
  apply find_tag_spec in Ef. assert (If : In f fields) by (eapply first_with_in; exact Ef).
  assert (Wff : wf_field f) by (rewrite Forall_forall in Wf; auto).
  assert (Sf : Zlen (f_val f) < 16777216) by (rewrite Forall_forall in Sz; apply (Sz f If)).
  rewrite wf_sub by auto. cbn [bind]. destruct Wff as (_ & Bf & _).
  assert (Inv : forall d, gpo_command_data sources fields d -> exists es vs, dol (f_val f) es /\ es <> [] /\ Forall2 (entry_data sources) es vs /\ Zlen (concat vs) <= 252).
  { intros d [Ab|f2 es vs F2 D Ne Fe L].
    - exfalso. apply find_tag_none in Ab. apply find_tag_spec in Ef. congruence.
    - apply find_tag_spec in F2. apply find_tag_spec in Ef. rewrite Ef in F2. injection F2 as <-. exists es, vs. auto. }
  destruct (list_eq_dec Z.eq_dec (f_val f) []) as [Ev|Ev].
  { right. rewrite Ev. split; [reflexivity|]. intros d Hd. destruct (Inv d Hd) as (es & vs & D & Ne & _). rewrite Ev in D. apply dol_inv_nil in D. contradiction. }
  destruct (dol_length_ok (f_val f) Bf Ev Sf) as (n & -> & Hn1 & Hn2). cbn [bind].
  assert (Tot : forall es, dol (f_val f) es -> 0 <= dol_total es).
  { intros es D. clear -D. induction D as [|id k rest es Hid Hk D IH]; cbn [dol_total fold_right snd]; [lia|]. unfold dol_total in IH. unfold is_byte in Hk. lia. }
  destruct (Z.ltb_spec n 0) as [Ln|Ln].
  { right. split; [reflexivity|]. intros d Hd. destruct (Inv d Hd) as (es & vs & D & _). rewrite (Hn1 es D) in Ln. specialize (Tot es D). lia. }
  change (255 - 3) with 252.
  assert (Lc : forall es vs, dol (f_val f) es -> Forall2 (entry_data sources) es vs -> Zlen (concat vs) = dol_total es).
  { intros es vs D Fe. destruct (build_valid (f_val f) es sources (repeat 0 (Z.to_nat (dol_total es) + 1)) D) as (vs' & Fe' & Lv & _); auto.
    - intros ->. inversion D; congruence.
    - intro Q. apply (f_equal (@length Z)) in Q. rewrite repeat_length in Q. cbn in Q. lia.
    - unfold Zlen. rewrite repeat_length. lia.
    - rewrite <- Lv. do 2 f_equal. clear -Fe Fe'. revert vs' Fe'. induction Fe as [|e v es vs He Fe IH]; intros vs' Fe'; inversion Fe'; subst; [reflexivity|].
      f_equal; [eapply entry_data_fun; eauto|auto]. }
  destruct (Z.ltb_spec 252 n) as [Ln2|Ln2].
  { right. split; [reflexivity|]. intros d Hd. destruct (Inv d Hd) as (es & vs & D & _ & Fe & L). rewrite (Lc es vs D Fe), <- (Hn1 es D) in L. lia. }
  destruct buf as [|b0 [|b1 [|b2 buf]]]; try discriminate. cbn [length] in Lb.
  assert (Body : forall hd_ rest, length hd_ = (255 - length rest)%nat -> (252 <= length rest <= 255)%nat -> hd_ = 0x83 :: ber_length n ->
    exists d, (let* (r, data, len) := dol_build_data (f_val f) sources rest in
      if negb (r =? 0) then Ret (inr EMV_INTERNAL)
      else let* d := sub (hd_ ++ data) 0 (Z.to_nat (len + Zlen hd_)) in Ret (inl (Some d))) = Ret (inl (Some d)) /\ gpo_command_data sources fields (Some d)).
  { intros hd_ rest Lh Lr Eh.
    assert (Nr : rest <> []) by (intros ->; cbn in Lr; lia).
    destruct (build_any (f_val f) sources rest Bf Ev Ws Ns Nr) as (r & data' & dl & E & Ld & Hdl & [(-> & es & vs & D & Ht & Fe & Lv & Ed & El)|[(-> & Hno)|(-> & Hno)]]).
    - rewrite E. cbn [bind Z.eqb negb]. assert (En : n = dol_total es) by auto.
      assert (Le : Z.to_nat (dl + Zlen hd_) = (length hd_ + length (concat vs))%nat) by (unfold Zlen in *; lia).
      rewrite Le. rewrite sub_Ret by (rewrite app_length, Ed, app_length; lia). cbn [bind].
      exists (hd_ ++ concat vs). split.
      + do 3 f_equal. cbn [skipn]. rewrite firstn_app_2. f_equal. rewrite Ed. rewrite firstn_app, Nat.sub_diag, firstn_all. cbn [firstn]. apply app_nil_r.
      + rewrite Eh. cbn [app]. replace n with (Zlen (concat vs)) by lia. eapply gc_pdol; eauto; [|lia]. intros ->. inversion D. congruence.
    - exfalso. assert (exists es, dol (f_val f) es) as [es D].
      { destruct (dol_itr_all_run (S (length (f_val f))) (f_val f) Bf ltac:(lia)) as (es0 & e & _ & He & Hq & Hu).
        destruct (Z.eq_dec e 0) as [->|Ne]; [exists es0; tauto|]. exfalso.
        assert (n = -3); [apply Hn2; intros es D; destruct (Hu es D); contradiction|lia]. }
      specialize (Hno es D). rewrite <- (Hn1 es D) in Hno. unfold Zlen in Hno. lia.
    - exfalso. specialize (Hn2 Hno). lia. }
  change (wr (b0 :: b1 :: b2 :: buf) 0 0x83) with (Ret (0x83 :: b1 :: b2 :: buf)). cbn [bind].
  unfold ber_length in Body. change 0x80 with 128. destruct (Z.ltb_spec n 128) as [L8|L8].
  - change (wr (0x83 :: b1 :: b2 :: buf) 1 n) with (Ret (0x83 :: n :: b2 :: buf)). cbn [bind]. cbn [skipn firstn].
    destruct (Body [0x83; n] (b2 :: buf)) as (d & E & G); [cbn [length]; lia|cbn [length]; lia|reflexivity|].
    left. exists (Some d). split; [exact E|exact G].
  - change (wr (0x83 :: b1 :: b2 :: buf) 1 0x81) with (Ret (0x83 :: 0x81 :: b2 :: buf)). cbn [bind].
    change (wr (0x83 :: 0x81 :: b2 :: buf) 2 n) with (Ret (0x83 :: 0x81 :: n :: buf)). cbn [bind skipn firstn].
    destruct (Body [0x83; 0x81; n] buf) as (d & E & G); [cbn [length]; lia|lia|reflexivity|].
    left. exists (Some d). split; [exact E|exact G].
Qed.

(** ** Initiating application processing *)
Definition fields_ok (l : list field) : Prop := Forall wf_field l /\ Forall (fun f => Zlen (f_val f) < 16777216) l.
Lemma terminal_wf pos aid : wf_sources [terminal_data pos aid].
Proof. repeat constructor. Qed.
Lemma initiate_spec buf s c pos a : length buf = 255%nat -> is_byte pos -> k_app c = Some (a, InApp) ->
  wf_field (a_aid a) -> fields_ok (a_tlvs a) -> fields_ok (k_params c) -> fields_ok (k_config c) ->
  let aid := f_val (a_aid a) in
  match initiate x buf s c pos with
  | NoFuel => exists d, x_gpo x s d = NoFuel
  | UB => False
  | Ret (r, c', s') =>
    (k_ttl c', k_config c', k_aids c', k_params c', k_term c') = (k_ttl c, k_config c, k_aids c, k_params c, terminal_data pos aid) /\
    ((s' = s /\ r = CARD_ERROR /\ k_icc c' = [] /\ k_app c' = k_app c /\
       forall d, ~ gpo_command_data [k_params c; k_config c; terminal_data pos aid] (a_tlvs a) d) \/
     (exists d tr gpo p q, gpo_command_data [k_params c; k_config c; terminal_data pos aid] (a_tlvs a) d /\
       get_processing_options x s d [] = Ret (tr, gpo, p, q, s') /\
       ((tr = 0 /\ r = 0 /\ k_icc c' = a_tlvs a ++ gpo /\ exists b, k_app c' = Some (b, InIcc)) \/
        (tr <> 0 /\ r = gpo_outcome tr /\ k_icc c' = [] /\ k_app c' = k_app c))))
  end.
Proof.
  intros Lb Bp Ha Wa [Wt St] [Wp Sp] [Wc Sc] aid. unfold initiate. rewrite Ha. cbn [after_icc_clear bind].
  rewrite wf_sub by auto. cbn [bind]. destruct Wa as (La & Ba & _). rewrite La. fold aid.
  change [mkField 0x9F39 1 [pos] 0; mkField 0x9F06 (Zlen aid) aid 0; mkField 0x9B 2 [0;0] 0; mkField 0x95 5 [0;0;0;0;0] 0] with (terminal_data pos aid).
  set (sources := [k_params c; k_config c; terminal_data pos aid]).
  assert (Wd : forall l, Forall wf_field l -> Forall DolSpec.wf_field l) by (intros l Hl; eapply Forall_impl; [|exact Hl]; intros f (Hf & _); exact Hf).
  assert (Ws : wf_sources sources).
  { constructor; [auto|]. constructor; [auto|]. apply terminal_wf. }
  destruct (gpo_data_spec buf sources (a_tlvs a) Lb Wt St Ws ltac:(discriminate)) as [(d & -> & Gd)|(-> & Gn)]; cbn [bind].
  2:{ split; [reflexivity|]. left. cbn. repeat split; auto. }
  assert (Bd : match d with Some d => bytes d | None => True end).
  { destruct Gd as [_|f es vs F D Ne Fe L]; [exact I|].
    assert (Bt : Forall (fun f => bytes (f_val f)) (terminal_data pos aid)).
    { repeat constructor; cbn [f_val]; auto; unfold is_byte; lia. }
    assert (Bs : Forall (Forall (fun f => bytes (f_val f))) sources).
    { unfold sources. constructor; [eapply Forall_impl; [|exact Wp]; intros g (_ & Bg & _); exact Bg|].
      constructor; [eapply Forall_impl; [|exact Wc]; intros g (_ & Bg & _); exact Bg|]. constructor; [exact Bt|constructor]. }
    assert (Bv : bytes (concat vs)).
    { clear -Fe Bs. induction Fe as [|e v es vs He Fe IH]; cbn [concat]; [constructor|]. apply bytes_app_intro; [eapply entry_bytes; eauto|auto]. }
    apply bytes_cons; [unfold is_byte; lia|]. apply bytes_app_intro; [|exact Bv]. unfold ber_length.
    assert (0 <= Zlen (concat vs)) by (unfold Zlen; lia).
    destruct (_ <? _); repeat (apply bytes_cons; [unfold is_byte; lia|]); constructor. }
  pose proof (gpo_spec x W junk Lj s d [] Bd) as K.
  destruct (get_processing_options x s d []) as [[[[[tr gpo] p] q] s1]| |] eqn:Eg; cbn [bind]; [|contradiction|eauto].
  assert (Codes : tr = 0 \/ tr = TAL_GPO_CONDITIONS_NOT_SATISFIED \/ tr < 0).
  { clear -K. unfold TAL_INVALID_PARAMETER, TAL_TTL_FAILURE, TAL_GPO_CONDITIONS_NOT_SATISFIED, TAL_GPO_FAILED, TAL_GPO_PARSE_FAILED, TAL_GPO_FIELD_NOT_FOUND in *.
    destruct K as [(-> & _)|(_ & ap & _ & _ & [(_ & -> & _)|[(_ & _ & -> & _)|[(_ & _ & _ & -> & _)|[(_ & _ & -> & _)|[(_ & _ & -> & _)|(_ & _ & -> & _)]]]]])]; lia. }
  unfold TAL_GPO_CONDITIONS_NOT_SATISFIED in *.
  destruct (Z.ltb_spec tr 0) as [Tn|Tn]; [|destruct (Z.ltb_spec 0 tr) as [Tp|Tp]].
  - split; [reflexivity|]. right. exists d, tr, gpo, p, q. split; [exact Gd|]. split; [exact Eg|]. right. split; [lia|].
    split; [|auto]. unfold gpo_outcome, TAL_INTERNAL, TAL_INVALID_PARAMETER. destruct (Z.eqb_spec tr 13); [lia|]. reflexivity.
  - assert (tr = 13) by lia. subst tr. split; [reflexivity|]. right. exists d, 13, gpo, p, q. split; [exact Gd|]. split; [exact Eg|]. right. split; [lia|].
    split; [reflexivity|auto].
  - assert (tr = 0) by lia. subst tr. split; [reflexivity|]. right. exists d, 0, gpo, p, q. split; [exact Gd|]. split; [exact Eg|]. left.
    cbn [k_icc k_app]. repeat split; auto. eauto.
Qed.
(** A second call after a successful one follows the released AID. *)
Lemma initiate_twice buf s c pos c' s' : initiate x buf s c pos = Ret (0, c', s') ->
  forall buf2 s2 pos2, initiate x buf2 s2 c' pos2 = UB.
Proof.
  unfold initiate at 1. intros E buf2 s2 pos2. destruct (k_app c) as [ap|] eqn:Ha; [|discriminate].
  destruct (after_icc_clear (Some ap)) as [[a at_]|] eqn:Eq; [|discriminate].
  apply bind_Ret_inv in E as (aid & E1 & E). apply bind_Ret_inv in E as (v & _ & E).
  assert (Hat : at_ = InApp).
  { destruct at_; [reflexivity| |discriminate]. destruct ap as [a2 [| |]]; discriminate. }
  subst at_. apply bind_Ret_inv in E as ([d|r] & Ed & E).
  2:{ injection E as -> <- _. exfalso. clear -Ed. unfold gpo_data in Ed. destruct (find_tag _ _); [|discriminate].
      apply bind_Ret_inv in Ed as (v1 & _ & Ed). apply bind_Ret_inv in Ed as (n & _ & Ed).
      destruct (n <? 0); [discriminate|]. destruct (_ <? n); [discriminate|]. apply bind_Ret_inv in Ed as (b & _ & Ed).
      apply bind_Ret_inv in Ed as ([b2 o] & _ & Ed). apply bind_Ret_inv in Ed as ([[r dd] ll] & _ & Ed).
      destruct (negb _); [discriminate|]. apply bind_Ret_inv in Ed as (q & _ & Ed). discriminate. }
  apply bind_Ret_inv in E as ([[[[tr gpo] p] q] s1] & _ & E).
  destruct (Z.ltb_spec tr 0); [injection E as E _ _; destruct (_ || _)%bool; discriminate|].
  destruct (Z.ltb_spec 0 tr); [injection E as E _ _; destruct (_ =? _); discriminate|].
  injection E as <- _. unfold initiate. cbn [k_app after_icc_clear]. reflexivity.
Qed.
(** After a call that did not succeed the application is still whole. *)
Lemma initiate_failed buf s c pos r c' s' a : k_app c = Some (a, InApp) -> initiate x buf s c pos = Ret (r, c', s') -> r <> 0 ->
  k_app c' = Some (a, InApp) /\ k_icc c' = [].
Proof.
  unfold initiate. intros Ha E N. rewrite Ha in E. cbn [after_icc_clear bind] in E. apply bind_Ret_inv in E as (v & _ & E).
  apply bind_Ret_inv in E as ([d|r1] & Ed & E); [|injection E as _ <- _; auto].
  apply bind_Ret_inv in E as ([[[[tr gpo] p] q] s1] & _ & E).
  destruct (tr <? 0); [injection E as _ <- _; auto|]. destruct (0 <? tr); [injection E as _ <- _; auto|]. injection E as <- _ _. contradiction.
Qed.

(** ** Reading application data *)
Lemma has_dup_spec l : has_duplicate l = false <-> no_duplicates l.
Proof.
  unfold no_duplicates. induction l as [|f r IH]; cbn [has_duplicate map]; [split; [constructor|auto]|].
  rewrite Bool.orb_false_iff, IH. split.
  - intros [H1 H2]. constructor; [|auto]. intro I1. apply in_map_iff in I1 as (g & Eg & Ig).
    assert (K : existsb (fun g => f_tag g =? f_tag f) r = true) by (apply existsb_exists; exists g; split; [auto|lia]). congruence.
  - intro H. inversion H as [|? ? H1 H2]; subst. split; [|auto]. apply Bool.not_true_is_false. intro K. apply existsb_exists in K as (g & Ig & Eg).
    apply H1. apply in_map_iff. exists g. split; [lia|auto].
Qed.
Lemma found_spec tag l : existsb (fun f => f_tag f =? tag) l = true <-> In tag (map f_tag l).
Proof.
  rewrite existsb_exists, in_map_iff. split; intros (f & H1 & H2); exists f; split; auto; lia.
Qed.
Lemma read_data_spec rfuel s c r c' s' : Forall wf_field (k_icc c) ->
  read_application_data x rfuel s c = Ret (r, c', s') ->
  (r <> 0 /\ c' = c /\ (r = CARD_ERROR \/ r = EMV_INTERNAL)) \/
  (r = 0 /\ exists afl tr fs, first_with 0x94 (k_icc c) afl /\ read_afl_records x rfuel s (f_val afl) [] = Ret (tr, fs, s') /\
    (tr = 0 \/ tr = TAL_ODA_RECORD_INVALID) /\ no_duplicates fs /\ incl mandatory (map f_tag fs) /\
    c' = mkCtx (k_ttl c) (k_config c) (k_aids c) (k_params c) (k_app c) (k_icc c ++ fs) (k_term c)).
Proof.
  intros Wi E. unfold read_application_data in E. destruct (find_tag 0x94 (k_icc c)) as [afl|] eqn:Ef.
  2:{ injection E as <- <- <-. left. unfold CARD_ERROR. repeat split; auto; lia. }
  apply find_tag_spec in Ef. assert (Wf : wf_field afl) by (rewrite Forall_forall in Wi; apply Wi; eapply first_with_in; exact Ef).
  rewrite wf_sub in E by auto. cbn [bind] in E. apply bind_Ret_inv in E as ([[tr fs] s1] & Er & E).
  destruct (tr <? 0). { injection E as <- <- <-. left. destruct (_ || _)%bool; unfold CARD_ERROR, EMV_INTERNAL; repeat split; auto; lia. }
  destruct (negb (tr =? 0) && negb (tr =? TAL_ODA_RECORD_INVALID))%bool eqn:Et.
  { injection E as <- <- <-. left. unfold CARD_ERROR. repeat split; auto; lia. }
  destruct (has_duplicate fs) eqn:Ed. { injection E as <- <- <-. left. unfold CARD_ERROR. repeat split; auto; lia. }
  destruct (_ || _)%bool eqn:Em. { injection E as <- <- <-. left. unfold CARD_ERROR. repeat split; auto; lia. }
  injection E as <- <- <-. right. split; [reflexivity|]. exists afl, tr, fs. split; [exact Ef|]. split; [exact Er|]. split; [lia|].
  split; [now apply has_dup_spec|]. split; [|reflexivity].
  apply Bool.orb_false_iff in Em as [Em K4]. apply Bool.orb_false_iff in Em as [Em K3]. apply Bool.orb_false_iff in Em as [K1 K2].
  apply Bool.negb_false_iff in K1, K2, K3, K4. rewrite found_spec in K1, K2, K3, K4.
  intros tag It. unfold mandatory in It. cbn [In] in It. intuition (subst; auto).
Qed.
Lemma read_data_complete rfuel s c s' afl tr fs : Forall wf_field (k_icc c) -> first_with 0x94 (k_icc c) afl ->
  read_afl_records x rfuel s (f_val afl) [] = Ret (tr, fs, s') -> tr = 0 \/ tr = TAL_ODA_RECORD_INVALID ->
  no_duplicates fs -> incl mandatory (map f_tag fs) ->
  read_application_data x rfuel s c = Ret (0, mkCtx (k_ttl c) (k_config c) (k_aids c) (k_params c) (k_app c) (k_icc c ++ fs) (k_term c), s').
Proof.
  intros Wi Ef Er Ht Nd Im. unfold read_application_data.
  assert (Wf : wf_field afl) by (rewrite Forall_forall in Wi; apply Wi; eapply first_with_in; exact Ef).
  apply find_tag_spec in Ef. rewrite Ef. rewrite wf_sub by auto. cbn [bind]. rewrite Er. cbn [bind].
  apply has_dup_spec in Nd. rewrite Nd.
  assert (M : forall tag, In tag mandatory -> existsb (fun f => f_tag f =? tag) fs = true) by (intros tag It; apply found_spec; auto).
  rewrite !M by (cbn; auto 10). destruct Ht as [-> | ->]; reflexivity.
Qed.
Lemma read_data_records rfuel s c r c' s' : Forall wf_field (k_icc c) ->
  read_application_data x rfuel s c = Ret (r, c', s') ->
  (r <> 0 /\ c' = c) \/
  (r = 0 /\ exists afl es datas fs oda, first_with 0x94 (k_icc c) afl /\ f_val afl = flat_map afl_octets es /\ Forall afl_valid es /\
    reads x s (flat_map listed es) datas s' /\ records_give false (flat_map listed es) datas fs oda /\
    no_duplicates fs /\ incl mandatory (map f_tag fs) /\
    c' = mkCtx (k_ttl c) (k_config c) (k_aids c) (k_params c) (k_app c) (k_icc c ++ fs) (k_term c)).
Proof.
  intros Wi E. destruct (read_data_spec _ _ _ _ _ _ Wi E) as [(N & -> & _)|(-> & afl & tr & fs & Ef & Er & Ht & Nd & Im & ->)]; [auto|].
  right. split; [reflexivity|].
  assert (Wf : wf_field afl) by (rewrite Forall_forall in Wi; apply Wi; eapply first_with_in; exact Ef). destruct Wf as (_ & Ba & _).
  destruct (read_afl_sound x W (f_val afl) rfuel s [] tr fs s' Ba Er Ht) as (es & datas & fs' & oda & E1 & E2 & E3 & E4 & -> & _). cbn [app] in *.
  exists afl, es, datas, fs', oda. auto 10.
Qed.
(** The AFL that is used is the first in the card data; after GET PROCESSING OPTIONS
    this is the one of the response unless the FCI had one. *)
Lemma icc_afl fci gpo f : absent 0x94 fci -> first_with 0x94 gpo f -> first_with 0x94 (fci ++ gpo) f.
Proof.
  intros Ab (pre & post & -> & H1 & H2). exists (fci ++ pre), post. rewrite <- app_assoc. split; [reflexivity|]. split; [|exact H2]. apply Forall_app. auto.
Qed.
End Emv.
