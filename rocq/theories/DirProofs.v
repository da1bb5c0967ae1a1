(** Proofs about the messages told while the directory is read. *)
From Coq Require Import String.
From Verif Require Import Base BaseLemmas BerModel BerSpec BerProofs TlvListModel TlvModel TlvSpec TlvProofs DolModel DolSpec DolProofs TtlModel FieldsModel AppModel AppSpec AppProofs
  TalModel TalSpec TalProofs StrModel StrSpec CapduModel PrintModel PrintProofs DirModel DirSpec.
Open Scope string_scope.
Open Scope Z_scope.
Open Scope list_scope.
Notation length := List.length.

(** ** In step with the model without messages *)
Section Step.
Context {T : Type} (x : transport T) (junk : list Z) (jt : Z -> Z).
Definition silent {A B} (m : out (A * B)) : out A := let* (a, _) := m in Ret a.
Lemma aef_silent fuel : forall itr pse supported apps n, silent (aef_loop_n junk fuel itr pse supported apps n) = aef_loop junk fuel itr pse supported apps.
Proof.
  unfold silent. induction fuel as [|fuel IH]; intros; [reflexivity|]. cbn [aef_loop_n aef_loop].
  destruct (ber_itr_next itr) as [[[r t] itr']| |]; cbn [bind]; try reflexivity. destruct (r <=? 0); [reflexivity|]. destruct t as [t|]; [|reflexivity].
  destruct (negb (b_tag t =? 0x61)); [apply IH|]. destruct (app_create_from_pse junk pse (b_val t)) as [[a|]| |]; cbn [bind]; try reflexivity; [|apply IH].
  destruct (app_is_supported (a_aid a) supported) as [[|]| |]; cbn [bind]; try reflexivity; apply IH.
Qed.
Lemma parse_silent j pse rec supported apps n : silent (parse_aef_n junk j pse rec supported apps n) = parse_aef_record junk pse rec supported apps.
Proof.
  unfold silent, parse_aef_n, parse_aef_record. destruct (ber_decode rec) as [[r t]| |]; cbn [bind]; try reflexivity. destruct (r <=? 0); [reflexivity|].
  destruct t as [t|]; [|reflexivity]. destruct (negb (b_tag t =? 0x70)); [reflexivity|].
  rewrite <- (aef_silent _ _ _ _ _ n). unfold silent. destruct (aef_loop_n _ _ _ _ _ _) as [[apps' n']| |]; reflexivity.
Qed.
Lemma loop_silent fuel : forall s sfi rec pse supported apps n,
  silent (pse_loop_n x junk jt fuel s sfi rec pse supported apps n) = pse_loop x junk fuel s sfi rec pse supported apps.
Proof.
  induction fuel as [|fuel IH]; intros; [reflexivity|]. cbn [pse_loop_n pse_loop]. destruct (x_read x s sfi rec) as [a| |]; cbn [bind]; try reflexivity.
  destruct (negb (n_ret a =? 0)); [reflexivity|]. destruct (n_sw a =? 0x6A83); [reflexivity|]. destruct (negb (n_sw a =? 0x9000)); [apply IH|].
  rewrite <- (parse_silent (jt rec) _ _ _ _ (n ++ [Data (lit "AEF") (n_data a)])). unfold silent at 2.
  destruct (parse_aef_n _ _ _ _ _ _ _) as [[[r apps'] n']| |]; cbn [bind]; try reflexivity. destruct (r <? 0); [reflexivity|apply IH].
Qed.
Lemma read_silent fuel s supported apps : silent (read_pse_n x junk jt fuel s supported apps) = read_pse x junk fuel s supported apps.
Proof.
  unfold read_pse_n, read_pse, silent. cbv zeta. destruct (x_select x s EMV_PSE) as [a| |]; cbn [bind]; try reflexivity.
  destruct (negb (n_ret a =? 0)); [reflexivity|]. destruct (n_sw a =? 0x6A81); [reflexivity|]. destruct (n_sw a =? 0x6A82); [reflexivity|].
  destruct (n_sw a =? 0x6283); [reflexivity|]. destruct (negb (n_sw a =? 0x9000)); [reflexivity|].
  destruct (tlv_parse (n_data a) []) as [[r pse]| |]; cbn [bind]; try reflexivity. destruct (r <? 0); [reflexivity|].
  destruct (find_tag 0x88 pse) as [f|]; [|reflexivity]. destruct (negb (f_len f =? 1)); [reflexivity|].
  destruct (rd (f_val f) 0) as [sfi| |]; cbn [bind]; try reflexivity. rewrite <- (loop_silent _ _ _ _ _ _ _ ([Info (lit "SELECT " ++ EMV_PSE)] ++ [Data (lit "FCI") (n_data a)])). unfold silent.
  destruct (pse_loop_n _ _ _ _ _ _ _ _ _ _) as [[[[r' apps'] s'] n']| |]; reflexivity.
Qed.
End Step.

(** ** The last message *)
Section Last.
Context {T : Type} (x : transport T) (junk : list Z) (jt : Z -> Z).
Definition ends_with (r : Z) (n : list note) : Prop := exists n0 m, n = n0 ++ [m] /\ In (r, m) last_words.
Lemma parse_codes j pse rec supported apps n r apps' n' : parse_aef_n junk j pse rec supported apps n = Ret (r, apps', n') -> 0 <= r.
Proof.
  unfold parse_aef_n. destruct (ber_decode rec) as [[r0 t]| |]; cbn [bind]; try discriminate. destruct (r0 <=? 0).
  { intros E. assert (r = TAL_PSE_AEF_PARSE_FAILED) as -> by congruence. cbv; discriminate. }
  destruct t as [t|]; [|discriminate]. destruct (negb (b_tag t =? 0x70)).
  { intros E. assert (r = TAL_PSE_AEF_INVALID) as -> by congruence. cbv; discriminate. }
  destruct (aef_loop_n _ _ _ _ _ _) as [[a1 n1]| |]; cbn [bind]; try discriminate. intros E. assert (r = 0) as -> by congruence. lia.
Qed.
Ltac ending := eexists _, _; split; [reflexivity|]; cbn [last_words In]; tauto.
Lemma loop_last fuel : forall s sfi rec pse supported apps n r apps' s' n',
  pse_loop_n x junk jt fuel s sfi rec pse supported apps n = Ret (r, apps', s', n') -> ends_with r n'.
Proof.
  induction fuel as [|fuel IH]; intros s sfi rec pse supported apps n r apps' s' n' E; [discriminate|]. cbn [pse_loop_n] in E.
  destruct (x_read x s sfi rec) as [a| |]; cbn [bind] in E; try discriminate.
  destruct (negb (n_ret a =? 0)).
  { assert (r = TAL_TTL_FAILURE /\ n' = n ++ [Err (lit "TTL failure")]) as (-> & ->) by (split; congruence). ending. }
  destruct (n_sw a =? 0x6A83).
  { assert (r = 0 /\ n' = n ++ [Info (lit "No more PSE records")]) as (-> & ->) by (split; congruence). ending. }
  destruct (negb (n_sw a =? 0x9000)); [eapply IH; exact E|].
  destruct (parse_aef_n _ _ _ _ _ _ _) as [[[r1 a1] n1]| |] eqn:Ep; cbn [bind] in E; try discriminate. apply parse_codes in Ep.
  destruct (Z.ltb_spec r1 0); [lia|]. eapply IH; exact E.
Qed.
Lemma read_last fuel s supported apps r apps' s' n : read_pse_n x junk jt fuel s supported apps = Ret (r, apps', s', n) -> ends_with r n.
Proof.
  unfold read_pse_n. cbv zeta. destruct (x_select x s EMV_PSE) as [a| |]; cbn [bind]; try discriminate. set (n0 := [Info (lit "SELECT " ++ EMV_PSE)]).
  destruct (negb (n_ret a =? 0)).
  { intros E. assert (r = TAL_TTL_FAILURE /\ n = n0 ++ [Err (lit "TTL failure")]) as (-> & ->) by (split; congruence). ending. }
  destruct (n_sw a =? 0x6A81).
  { intros E. assert (r = TAL_CARD_BLOCKED /\ n = n0 ++ [Err (lit "Card blocked or SELECT not supported")]) as (-> & ->) by (split; congruence). ending. }
  destruct (n_sw a =? 0x6A82).
  { intros E. assert (r = TAL_PSE_NOT_FOUND /\ n = n0 ++ [Info (lit "PSE not found")]) as (-> & ->) by (split; congruence). ending. }
  destruct (n_sw a =? 0x6283).
  { intros E. assert (r = TAL_PSE_BLOCKED /\ n = n0 ++ [Err (lit "PSE is blocked")]) as (-> & ->) by (split; congruence). ending. }
  destruct (negb (n_sw a =? 0x9000)).
  { intros E. assert (r = TAL_PSE_SELECT_FAILED /\ n = n0 ++ [Err (lit "Failed to SELECT PSE")]) as (-> & ->) by (split; congruence). ending. }
  destruct (tlv_parse (n_data a) []) as [[r0 pse]| |]; cbn [bind]; try discriminate. set (n1 := n0 ++ [Data (lit "FCI") (n_data a)]).
  destruct (r0 <? 0).
  { cbn [bind]. intros E. assert (r = TAL_PSE_FCI_PARSE_FAILED /\ n = n1 ++ [Err (lit "Failed to parse FCI")]) as (-> & ->) by (split; congruence). ending. }
  destruct (find_tag 0x88 pse) as [f|].
  2:{ cbn [bind]. intros E. assert (r = TAL_PSE_SFI_NOT_FOUND /\ n = n1 ++ [Err (lit "Failed to find SFI for PSE records")]) as (-> & ->) by (split; congruence). ending. }
  destruct (negb (f_len f =? 1)).
  { cbn [bind]. intros E. assert (r = TAL_PSE_SFI_INVALID /\ n = n1 ++ [Err (lit "Invalid SFI length or value for PSE records")]) as (-> & ->) by (split; congruence). ending. }
  destruct (rd (f_val f) 0) as [sfi| |]; cbn [bind]; try discriminate.
  destruct (pse_loop_n _ _ _ _ _ _ _ _ _ _) as [[[[r' a'] s2] n']| |] eqn:El; cbn [bind]; try discriminate. intros E.
  assert (r = r' /\ n = n') as (-> & ->) by (split; congruence). eapply loop_last; exact El.
Qed.
End Last.

(** ** The messages of a record *)
Lemma piece_starts p t : piece p t -> exists id, starts_with id p /\ b_tag t = be id.
Proof.
  intros [[(_ & id & lf & -> & Hi & Ht & _) _]|(id & -> & Hi & _ & Ht & _)].
  - exists id. split; [split; [exact Hi|eauto]|]. congruence.
  - exists id. split; [split; [exact Hi|eauto]|]. exact Ht.
Qed.
Section Told.
Context {T : Type} (x : transport T) (W : wf_transport x) (junk : list Z) (Lj : length junk = 17%nat) (jt : Z -> Z).
Context (supported : list field) (Ws : Forall wf_field supported).

Lemma aef_told pse : Forall wf_field pse -> forall fuel itr apps n, bytes itr -> small itr -> (length itr < fuel)%nat ->
  exists ps rest ls ns, itr = List.concat ps ++ rest /\
    (forall q tag flags v post, encodes q tag flags v -> rest <> q ++ post) /\
    entries_told junk pse supported ps ls ns /\
    aef_loop_n junk fuel itr pse supported apps n = Ret (apps ++ ls, n ++ ns).
Proof.
  intro Wp. induction fuel as [|fuel IH]; intros itr apps n B S L; [lia|]. cbn [aef_loop_n].
  destruct (itr_next_step itr B S) as (r & t & D & Ok & N). rewrite N. cbn [bind].
  destruct (Z.leb_spec r 0) as [Hr|Hr].
  - exists [], itr, [], []. split; [reflexivity|]. split; [eapply undecodable; eauto|]. split; [constructor|]. now rewrite !app_nil_r.
  - destruct t as [t|]; cbn [ber_ok] in Ok; [|lia]. destruct (decode_piece itr r t B S D) as [P Hlen].
    destruct (piece_val _ _ P ltac:(auto)) as [Bv Lv]. rewrite firstn_length_le in Lv by lia.
    assert (Sv : small (b_val t)) by (eapply small_le; [exact S|lia]).
    assert (Step : forall l m, entry_told junk pse supported (firstn (Z.to_nat r) itr) t (l, m) ->
      exists ps rest ls ns, itr = List.concat ps ++ rest /\
       (forall q tag flags v post, encodes q tag flags v -> rest <> q ++ post) /\
       entries_told junk pse supported ps ls ns /\
       aef_loop_n junk fuel (skipn (Z.to_nat r) itr) pse supported (apps ++ l) (n ++ [m]) = Ret (apps ++ ls, n ++ ns)).
    { intros l m Et. destruct (IH (skipn (Z.to_nat r) itr) (apps ++ l) (n ++ [m])) as (ps & rest & ls & ns & K1 & K2 & K3 & K4);
        [auto|now apply skipn_small|rewrite skipn_length; lia|].
      exists (firstn (Z.to_nat r) itr :: ps), rest, (l ++ ls), (m :: ns).
      split; [cbn [List.concat]; rewrite <- app_assoc, <- K1; symmetry; apply firstn_skipn|].
      split; [auto|]. split; [econstructor; eauto|]. rewrite K4, <- !app_assoc. reflexivity. }
    destruct (Z.eqb_spec (b_tag t) 0x61) as [T6|T6]; cbn [negb].
    2:{ destruct (piece_starts _ _ P) as (id & Si & Ti). rewrite Ti, tag_hex by apply Si.
        destruct (Step _ _ (et_tag _ _ _ _ _ id T6 Si)) as (ps & rest & ls & ns & K1 & K2 & K3 & K4). rewrite app_nil_r in K4. eauto 9. }
    destruct (app_create_from_pse junk pse (b_val t)) as [[a|]| |] eqn:Ea; cbn [bind].
    + pose proof (pse_app_wf junk pse (b_val t) a Lj Wp Bv Sv Ea) as [_ Wa].
      destruct (supported_spec (a_aid a) supported Wa Ws) as (b & Es & Hb). rewrite Es. cbn [bind]. destruct b.
      * destruct (proj1 Hb eq_refl) as (g & Ig & Mg). apply Step. eapply et_app; eauto.
      * destruct (Step [] (Info (lit "Application is not supported"))) as (ps & rest & ls & ns & K1 & K2 & K3 & K4).
        { eapply et_other; eauto. intros g Ig Mg. assert (false = true) by (apply Hb; eauto). discriminate. }
        rewrite app_nil_r in K4. eauto 9.
    + destruct (Step [] (Err (lit "Invalid Application Template content"))) as (ps & rest & ls & ns & K1 & K2 & K3 & K4); [now apply et_invalid|].
      rewrite app_nil_r in K4. eauto 9.
    + exfalso. destruct (create_pse junk pse (b_val t) Lj Wp Bv Sv) as [(a' & ts & E' & _)|(E' & _)]; rewrite Ea in E'; discriminate.
    + exfalso. destruct (create_pse junk pse (b_val t) Lj Wp Bv Sv) as [(a' & ts & E' & _)|(E' & _)]; rewrite Ea in E'; discriminate.
Qed.
(** A record with the template, one without, one that cannot be parsed. *)
Lemma parse_told j pse data apps n : Forall wf_field pse -> bytes data -> small data ->
  exists r l ns, parse_aef_n junk j pse data supported apps (n ++ [Data (lit "AEF") data]) = Ret (r, apps ++ l, n ++ Data (lit "AEF") data :: ns) /\ 0 <= r /\
    record_told anything junk pse supported (0x9000, data) l (Data (lit "AEF") data :: ns ++ if 0 <? r then [Err (lit "Invalid PSE AEF record")] else []).
Proof.
  intros Wp B S. unfold parse_aef_n. destruct (ber_decode_safe data B S) as (r & t & D & Ok). rewrite D. cbn [bind].
  destruct (Z.leb_spec r 0) as [Hr|Hr].
  { exists TAL_PSE_AEF_PARSE_FAILED, [], [Err (lit "Failed to parse PSE AEF record")]. rewrite app_nil_r, <- app_assoc. split; [reflexivity|]. split; [cbv; discriminate|].
    apply rt_garbage. intros. eapply undecodable; eauto. }
  destruct t as [t|]; cbn [ber_ok] in Ok; [|lia].
  destruct (decode_piece data r t B S D) as [P Hlen]. destruct (piece_val _ _ P ltac:(auto)) as [Bv Lv]. rewrite firstn_length_le in Lv by lia.
  destruct (Z.eqb_spec (b_tag t) 0x70) as [T7|T7]; cbn [negb].
  2:{ exists TAL_PSE_AEF_INVALID, [], [Err (lit "Unexpected data element 0x" ++ p_X2 j ++ lit " in PSE AEF record")]. rewrite app_nil_r, <- app_assoc.
      split; [reflexivity|]. split; [cbv; discriminate|]. change (0 <? TAL_PSE_AEF_INVALID) with true. cbv iota. cbn [app].
      destruct (piece_starts _ _ P) as (id & Si & _). rewrite <- (firstn_skipn (Z.to_nat r) data).
      eapply rt_other; [exact P|exact T7|exact Si|exact I]. }
  assert (Sv : small (b_val t)) by (eapply small_le; [exact S|lia]).
  unfold ber_itr_init. destruct (aef_told pse Wp (Datatypes.S (length (b_val t))) (b_val t) apps (n ++ [Data (lit "AEF") data]) Bv Sv ltac:(lia)) as (ps & rest & ls & ns & K1 & K2 & K3 & K4).
  rewrite K4. cbn [bind]. exists 0, ls, ns. rewrite <- app_assoc. split; [reflexivity|]. split; [lia|].
  change (0 <? 0) with false. cbv iota. rewrite app_nil_r, <- (firstn_skipn (Z.to_nat r) data). eapply rt_template; eauto.
Qed.
Lemma loop_told pse sfi : Forall wf_field pse -> is_byte sfi -> forall fuel s rec apps n r apps' s' n', is_byte rec ->
  pse_loop_n x junk jt fuel s sfi rec pse supported apps n = Ret (r, apps', s', n') ->
  (r = 0 /\ exists recs ls ns, directory x sfi s rec recs s' /\ records_told anything junk pse supported recs ls ns /\ apps' = apps ++ ls /\
    n' = n ++ ns ++ [Info (lit "No more PSE records")]) \/
  (r = TAL_TTL_FAILURE /\ exists recs ls ns, directory_fails x sfi s rec (length recs) s' /\ records_told anything junk pse supported recs ls ns /\
    n' = n ++ ns ++ [Err (lit "TTL failure")]).
Proof.
  intros Wp Bsfi. induction fuel as [|fuel IH]; intros s rec apps n r apps' s' n' Br E; [discriminate|]. cbn [pse_loop_n] in E.
  destruct W as (_ & _ & Wr & _). specialize (Wr s sfi rec Bsfi Br). destruct (x_read x s sfi rec) as [a| |] eqn:Ea; [|contradiction|discriminate].
  cbn [good_answer] in Wr. cbn [bind] in E.
  destruct (Z.eqb_spec (n_ret a) 0) as [R0|R0]; cbn [negb] in E.
  2:{ right. assert (r = TAL_TTL_FAILURE /\ s' = n_st a /\ n' = n ++ [Err (lit "TTL failure")]) as (-> & -> & ->) by (repeat split; congruence).
      split; [reflexivity|]. exists [], [], []. split; [now constructor|]. split; [constructor|reflexivity]. }
  destruct (Z.eqb_spec (n_sw a) 0x6A83) as [S0|S0].
  { left. assert (r = 0 /\ apps' = apps /\ s' = n_st a /\ n' = n ++ [Info (lit "No more PSE records")]) as (-> & -> & -> & ->) by (repeat split; congruence).
    split; [reflexivity|]. exists [], [], []. split; [now constructor|]. split; [constructor|]. split; [now rewrite app_nil_r|reflexivity]. }
  assert (Step : forall l ms, record_told anything junk pse supported (n_sw a, n_data a) l ms ->
    pse_loop_n x junk jt fuel (n_st a) sfi (u8 (rec + 1)) pse supported (apps ++ l) (n ++ ms) = Ret (r, apps', s', n') ->
    (r = 0 /\ exists recs ls ns, directory x sfi s rec recs s' /\ records_told anything junk pse supported recs ls ns /\ apps' = apps ++ ls /\
      n' = n ++ ns ++ [Info (lit "No more PSE records")]) \/
    (r = TAL_TTL_FAILURE /\ exists recs ls ns, directory_fails x sfi s rec (length recs) s' /\ records_told anything junk pse supported recs ls ns /\
      n' = n ++ ns ++ [Err (lit "TTL failure")])).
  { intros l ms Rt E1. destruct (IH _ _ _ _ _ _ _ _ (u8_next rec) E1) as [(-> & recs & ls & ns & K1 & K2 & -> & ->)|(-> & recs & ls & ns & K1 & K2 & ->)].
    - left. split; [reflexivity|]. exists ((n_sw a, n_data a) :: recs), (l ++ ls), (ms ++ ns). split; [eapply dir_more; eauto|]. split; [constructor; auto|].
      split; [now rewrite app_assoc|now rewrite <- !app_assoc].
    - right. split; [reflexivity|]. exists ((n_sw a, n_data a) :: recs), (l ++ ls), (ms ++ ns). split; [cbn [length]; eapply dirf_more; eauto|]. split; [constructor; auto|].
      now rewrite <- !app_assoc. }
  destruct (Z.eqb_spec (n_sw a) 0x9000) as [S9|S9]; cbn [negb] in E.
  2:{ apply (Step [] [Err (lit "Unexpected PSE record error")]); [now apply rt_status|now rewrite app_nil_r]. }
  destruct (Wr R0) as [Bd Ld]. destruct (parse_told (jt rec) pse (n_data a) apps n Wp Bd (small256 _ Ld)) as (r1 & l & ns & E1 & Hr & Ra). rewrite E1 in E. cbn [bind] in E.
  destruct (Z.ltb_spec r1 0); [lia|]. rewrite <- S9 in Ra. apply (Step _ _ Ra). rewrite <- E. f_equal.
  destruct (0 <? r1); [now rewrite <- app_assoc|now rewrite app_nil_r].
Qed.
End Told.

(** ** As many announcements as applications *)
Lemma announces_yes : announces (Info (lit "Application is supported")) = true.
Proof. vm_compute. reflexivity. Qed.
Lemma announces_no : announces (Info (lit "Application is not supported")) = false.
Proof. vm_compute. reflexivity. Qed.
Lemma entries_count junk pse supported ps ls ns : entries_told junk pse supported ps ls ns -> length (filter announces ns) = length ls.
Proof.
  induction 1 as [|p t l n ps ls ns P E H IH]; [reflexivity|]. rewrite app_length, <- IH. cbn [filter].
  remember (l, n) as ln eqn:Q. destruct E as [id T6 Si|T6 Ea|a T6 Ea Hs|a g T6 Ea Ig Mg]; injection Q as <- <-.
  - reflexivity.
  - reflexivity.
  - match goal with |- context [announces ?m] => assert (announces m = false) as -> by exact announces_no end. reflexivity.
  - match goal with |- context [announces ?m] => assert (announces m = true) as -> by exact announces_yes end. reflexivity.
Qed.
Lemma record_count shown junk pse supported rec l n : record_told shown junk pse supported rec l n -> length (filter announces n) = length l.
Proof.
  intros [p t trail ps rest ls ns P T7 Hv Hr Es|p t trail id w P T7 Si Hw|data Hd|sw data Hs]; try reflexivity.
  change (length (filter announces ns) = length ls). eapply entries_count; exact Es.
Qed.
Lemma records_count shown junk pse supported recs ls ns : records_told shown junk pse supported recs ls ns -> length (filter announces ns) = length ls.
Proof.
  induction 1 as [|rec l n recs ls ns R H IH]; [reflexivity|]. rewrite filter_app, !app_length, IH. apply record_count in R. lia.
Qed.
