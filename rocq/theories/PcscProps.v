(** Properties of the PC/SC layer. *)
From Verif Require Import Base BaseLemmas BerSpec PcscModel PcscSpec PcscProofs.

(** ** C56: looking up a reader property *)

(** The property is in the list: its value is copied if it fits. *)
Theorem C56_property_found_partial :
  forall f p value vlen es v rest, feat_ok f ->
    given (f_props f) (f_props_len f) (enc_props es ++ (p :: Zlen v :: v) ++ rest) ->
    ~ In p (map fst es) -> Forall (fun e => Zlen (snd e) < 256) es ->
    Zlen v < 256 -> vlen <= Zlen value ->
    get_property f p value vlen
    = Ret (if Zlen v <=? vlen then (0, v ++ skipn (length v) value, Zlen v)
           else (-3, value, 0)).
Proof. exact get_property_found. Qed.

(** The property is in the list but cut short: an error. *)
Theorem C56_property_cut_partial :
  forall f p value vlen es n rest, feat_ok f ->
    given (f_props f) (f_props_len f) (enc_props es ++ p :: n :: rest) ->
    ~ In p (map fst es) -> Forall (fun e => Zlen (snd e) < 256) es ->
    Zlen rest < n ->
    get_property f p value vlen = Ret (-2, value, 0).
Proof. exact get_property_cut. Qed.

(** The property is not in a well-formed list: the PIN and display properties
    are consulted.  Missing for the full claim: a list in which an element of
    another tag is cut short. *)
Theorem C56_property_absent_partial :
  forall f p value vlen es rest, feat_ok f ->
    given (f_props f) (f_props_len f) (enc_props es ++ rest) ->
    ~ In p (map fst es) -> Forall (fun e => Zlen (snd e) < 256) es ->
    Zlen rest < 2 -> vlen <= Zlen value ->
    get_property f p value vlen = Ret (
      let word w err := if vlen <? 2 then (err, value, 0) else (0, w ++ skipn 2 value, 2) in
      if negb (f_pin_len f =? 0) && (p =? 0x01) then word (firstn 2 (f_pin f)) (-4)
      else if negb (f_disp_len f =? 0) && (p =? 0x04) then word (firstn 2 (f_disp f)) (-5)
      else if negb (f_disp_len f =? 0) && (p =? 0x05) then word (skipn 2 (f_disp f)) (-6)
      else (1, value, 0)).
Proof. exact get_property_absent. Qed.

(** These three cases and the one below are all there are. *)
Theorem C56_property_lists_partial :
  forall l, bytes l -> exists es rest,
    l = enc_props es ++ rest /\ Forall (fun e => Zlen (snd e) < 256) es /\
    (Zlen rest < 2 \/ exists t n q, rest = t :: n :: q /\ Zlen q < n).
Proof. exact props_shape. Qed.

(** A cut element of another tag always takes the look up out of the list: if
    nothing followed the list in memory, the next read would be outside. *)
Theorem C56_property_cut_other_partial :
  forall es p value vlen t n q, ~ In p (map fst es) ->
    Forall (fun e => Zlen (snd e) < 256) es -> t <> p -> Zlen q < n -> n < 256 ->
    Zlen (enc_props es ++ t :: n :: q) < 18446744073709551616 - 256 ->
    let l := enc_props es ++ t :: n :: q in
    prop_loop (S (length l)) l 0 (Zlen l) p value vlen = UB.
Proof. intros. apply prop_loop_leaves; assumption. Qed.

(** It can leave even the array that holds the list. *)
Theorem C56_property_lookup_leaves_refuted :
  exists f p value vlen, feat_ok f /\ bytes (f_props f) /\ vlen = Zlen value /\
    get_property f p value vlen = UB.
Proof.
  exists (mkfeat (repeat 0 264) 0 (repeat 0 4) 0 (repeat 0 4) 0
    ([2; 255] ++ repeat 0 262) 2), 1, [0; 0], 2.
  split; [|split; [|split; [reflexivity|vm_compute; reflexivity]]].
  - unfold feat_ok. cbn. lia.
  - cbn [f_props]. apply bytes_app_intro.
    + repeat constructor; unfold is_byte; lia.
    + apply Forall_forall. intros x Hx. apply repeat_spec in Hx. subst.
      unfold is_byte. lia.
Qed.
(** Or it can find a property that is not in the list. *)
Theorem C56_property_not_listed_refuted :
  exists f p value vlen, feat_ok f /\ vlen = Zlen value /\
    f_props_len f = 2 /\ firstn 2 (f_props f) = [2; 1] /\
    get_property f p value vlen = Ret (0, [7], 1).
Proof.
  exists (mkfeat (repeat 0 264) 0 (repeat 0 4) 0 (repeat 0 4) 0
    ([2; 1; 9; 4; 1; 7] ++ repeat 0 258) 2), 4, [0], 1.
  split; [unfold feat_ok; cbn; lia|]. repeat (split; [reflexivity|]).
  vm_compute. reflexivity.
Qed.

Example C56_ex :
  get_property (mkfeat (repeat 0 264) 0 (repeat 0 4) 0 [16; 0; 2; 0] 4
    ([11; 2; 0x6B; 0x0F; 12; 2; 0x12; 0x34] ++ repeat 0 256) 8) 12 [9; 9; 9] 3
  = Ret (0, [0x12; 0x34; 9], 2) /\
  get_property (mkfeat (repeat 0 264) 0 (repeat 0 4) 0 [16; 0; 2; 0] 4
    ([11; 2; 0x6B; 0x0F; 12; 2; 0x12; 0x34] ++ repeat 0 256) 8) 5 [9; 9; 9] 3
  = Ret (0, [2; 0; 9], 2).
Proof. split; vm_compute; reflexivity. Qed.

(** ** C81: reader features *)
Theorem C81_has_feature_exact :
  forall f es x, feat_ok f -> given (f_buf f) (f_buf_len f) (enc_features es) ->
    Forall fentry_ok es -> exists b, has_feature f x = Ret b /\
      (b = true <-> exists e, In e es /\ fe_tag e = x).
Proof.
  intros f es x OK G F. exists (existsb (fun e => fe_tag e =? x) es).
  split; [apply has_feature_spec; assumption|].
  rewrite existsb_exists. split; intros (e & I & E); exists e; (split; [exact I|]).
  - apply Z.eqb_eq. exact E.
  - apply Z.eqb_eq. exact E.
Qed.

Theorem C81_get_feature_exact :
  forall f es x, feat_ok f -> given (f_buf f) (f_buf_len f) (enc_features es) ->
    Forall fentry_ok es ->
    (forall a e b, es = a ++ e :: b -> fe_tag e = x -> fe_len e = 4 ->
       (forall e', In e' a -> fe_tag e' <> x \/ fe_len e' <> 4) ->
       get_feature f x = Ret (Some (be (fe_code e)))) /\
    ((forall e, In e es -> fe_tag e <> x \/ fe_len e <> 4) ->
       get_feature f x = Ret None).
Proof.
  intros f es x OK G F. rewrite (get_feature_spec f es x OK G F). split.
  - intros a e b -> Hx H4 Ha. clear G F OK.
    induction a as [|y a IH]; cbn [app find].
    + rewrite Hx, H4, !Z.eqb_refl. reflexivity.
    + assert (H : (fe_tag y =? x) && (fe_len y =? 4) = false).
      { destruct (Ha y (or_introl eq_refl)) as [N|N];
          destruct (Z.eqb_spec (fe_tag y) x); destruct (Z.eqb_spec (fe_len y) 4);
          try reflexivity; contradiction. }
      rewrite H. apply IH. intros e' I. apply Ha. right. exact I.
  - intros H. clear G F OK. induction es as [|y es IH]; [reflexivity|]. cbn [find].
    assert (N : (fe_tag y =? x) && (fe_len y =? 4) = false).
    { destruct (H y (or_introl eq_refl)) as [N|N];
        destruct (Z.eqb_spec (fe_tag y) x); destruct (Z.eqb_spec (fe_len y) 4);
        try reflexivity; contradiction. }
    rewrite N. apply IH. intros e I. apply H. right. exact I.
Qed.

(** Whatever the reader returned, collecting its features and then asking for
    a feature stays inside the buffers. *)
Theorem C81_features_safe :
  forall St (sv : svc St) s, svc_ok sv ->
    exists r f s', populate_features sv feat0 s = Ret (r, f, s') /\ feat_ok f /\
      (r = 0 -> (f_pin_len f = 0 \/ f_pin_len f = 4) /\
                (f_disp_len f = 0 \/ f_disp_len f = 4)) /\
      (forall x, (exists b, has_feature f x = Ret b) /\
                 (exists c, get_feature f x = Ret c)).
Proof.
  intros St sv s H.
  destruct (populate_ok sv feat0 s H) as (r & f & s' & E & OK & W).
  { unfold feat_ok, feat0. cbn [f_buf f_buf_len f_pin f_disp f_props f_props_len].
    rewrite !repeat_length. lia. }
  { split; left; reflexivity. }
  exists r, f, s'. split; [exact E|]. split; [exact OK|]. split; [exact W|].
  intros x. split; [apply has_feature_total|apply get_feature_total]; exact OK.
Qed.

(** After a failed connect a handle that was never set is passed to
    SCardDisconnect. *)
Theorem C81_disconnect_unset_handle_refuted :
  exists s', populate_features logging feat0 [] = Ret (-2, feat0, s') /\ s' = [None].
Proof. eexists. split; vm_compute; reflexivity. Qed.

Example C81_ex :
  let f := mkfeat ([0x12; 4; 0x42; 0x33; 0; 0x12; 6; 4; 0x42; 0x33; 0; 6] ++ repeat 0 252)
             12 (repeat 0 4) 0 (repeat 0 4) 0 (repeat 0 264) 0 in
  get_feature f 0x12 = Ret (Some 0x42330012) /\ has_feature f 6 = Ret true /\
  has_feature f 0x0A = Ret false.
Proof. repeat split; vm_compute; reflexivity. Qed.

(** ** C82: waiting for a card *)
Theorem C82_wait_asks :
  forall n idx k, (k < n)%nat ->
    nth_error (ask_states n 0 idx) k
    = Some (if (idx =? 0xFFFFFFFF) || (idx =? Z.of_nat k) then 0x10 else 0x01).
Proof. intros n idx k H. exact (ask_states_nth n 0 idx k H). Qed.

Theorem C82_wait_result :
  forall n change idx,
    let ev := snd (change (ask_states n 0 idx)) in
    let res := fst (change (ask_states n 0 idx)) in
    (forall j, wait_for_card n change idx = (0, j) <->
       res = 0 /\ exists a e b, ev = a ++ e :: b /\ j = Zlen a /\
         Z.land e 0x20 <> 0 /\ Forall (fun x => Z.land x 0x20 = 0) a) /\
    (res = 0x8010000A -> wait_for_card n change idx = (1, idx)) /\
    (res <> 0 -> res <> 0x8010000A -> wait_for_card n change idx = (-1, idx)).
Proof.
  intros n change idx. unfold wait_for_card.
  destruct (change (ask_states n 0 idx)) as [res ev]. cbn [fst snd]. cbv zeta.
  unfold SCARD_E_TIMEOUT, SCARD_S_SUCCESS. split; [|split].
  - intros j. destruct (Z.eqb_spec res 0x8010000A) as [->|N].
    { split; [intros H; discriminate H|]. intros [H _]. discriminate H. }
    destruct (Z.eqb_spec res 0) as [->|N']; cbn [negb].
    2:{ split; [intros H; discriminate H|]. intros [H _]. contradiction. }
    destruct (find_present 0 ev) as [i|] eqn:E.
    + apply find_present_some in E. destruct E as (a & e & b & Eev & -> & He & Ha).
      split.
      * intros H. injection H as <-. split; [reflexivity|].
        exists a, e, b. split; [exact Eev|]. split; [lia|]. split; assumption.
      * intros (_ & X). f_equal.
        assert (P : find_present 0 ev = Some j).
        { apply find_present_some. destruct X as (a' & e' & b' & X1 & X2 & X3 & X4).
          exists a', e', b'. split; [exact X1|]. split; [lia|]. split; assumption. }
        assert (Q : find_present 0 ev = Some (0 + Zlen a)).
        { apply find_present_some. exists a, e, b.
          split; [exact Eev|]. split; [lia|]. split; assumption. }
        congruence.
    + split; [intros H; discriminate H|]. intros (_ & a & e & b & X1 & X2 & X3 & X4).
      apply find_present_none in E. rewrite X1 in E.
      apply Forall_app in E. destruct E as [_ E]. inversion E. contradiction.
  - intros ->. rewrite Z.eqb_refl. reflexivity.
  - intros N N'. destruct (Z.eqb_spec res 0x8010000A); [contradiction|].
    destruct (Z.eqb_spec res 0); [contradiction|]. reflexivity.
Qed.

(** Asked for one reader, only that reader is reported, provided the service
    reports no card for readers it was told to ignore. *)
Theorem C82_wait_specific :
  forall n change k j, (k < n)%nat -> Z.of_nat k < 0xFFFFFFFF ->
    (forall asked i, nth_error asked i = Some 0x01 ->
       exists e, nth_error (snd (change asked)) i = Some e /\ Z.land e 0x20 = 0) ->
    (forall asked, length (snd (change asked)) = length asked) ->
    wait_for_card n change (Z.of_nat k) = (0, j) -> j = Z.of_nat k.
Proof.
  intros n change k j Hk Hm Hig Hlen H.
  apply (proj1 (C82_wait_result n change (Z.of_nat k))) in H.
  destruct H as (_ & a & e & b & E & -> & He & _).
  unfold Zlen. f_equal.
  destruct (Nat.eq_dec (length a) k) as [->|N]; [reflexivity|]. exfalso.
  assert (La : (length a < n)%nat).
  { pose proof (Hlen (ask_states n 0 (Z.of_nat k))) as L. rewrite E in L.
    rewrite ask_states_length, app_length in L. cbn [length] in L. lia. }
  pose proof (C82_wait_asks n (Z.of_nat k) (length a) La) as A.
  replace ((Z.of_nat k =? 0xFFFFFFFF) || (Z.of_nat k =? Z.of_nat (length a)))
    with false in A by lia.
  destruct (Hig _ _ A) as (e' & E' & Z0). rewrite E in E'.
  rewrite nth_error_app2, Nat.sub_diag in E' by lia. cbn in E'. congruence.
Qed.

(** A wait for any reader that ends without a card leaves an index that does
    not mean "any reader": asking again ignores every reader. *)
Theorem C82_wait_again_refuted :
  exists n change r idx,
    wait_for_card n change PCSC_READER_ANY = (r, idx) /\ r = 1 /\
    ask_states n 0 PCSC_READER_ANY = [0x10; 0x10] /\
    ask_states n 0 idx = [0x01; 0x01].
Proof.
  exists 2%nat, (fun _ => (0, [0x12; 0x12])), 1, (u64 (-1)).
  repeat split; vm_compute; reflexivity.
Qed.

Example C82_ex :
  wait_for_card 3 (fun _ => (0, [0x12; 0x22; 0x22])) PCSC_READER_ANY = (0, 1) /\
  wait_for_card 2 (fun a => (0, map (fun x => if x =? 0x10 then 0x22 else 0) a)) 1 = (0, 1).
Proof. split; vm_compute; reflexivity. Qed.

(** ** C83: the type of the card *)
Theorem C83_contact_card :
  forall St (sv : svc St) r s s1 s2 h p p2 d, reader_ok r ->
    sv_connect sv s 1 = ((0, h, p), s1) ->
    sv_status sv s1 h 33 = ((0, p2, d), s2) -> bytes d -> (length d <= 33)%nat ->
    ~ contactless_atr d ->
    connect sv r s = Ret (1, mkreader h p2 (d ++ skipn (length d) (r_atr r)) (Zlen d)
                               (r_uid r) (r_uid_len r) 1, s2).
Proof. intros St sv r s s1 s2 h p p2 d. apply connect_contact. Qed.

Theorem C83_contactless_card :
  forall St (sv : svc St) r s s1 s2 h p p2 d, reader_ok r ->
    sv_connect sv s 1 = ((0, h, p), s1) ->
    sv_status sv s1 h 33 = ((0, p2, d), s2) -> bytes d -> (length d <= 33)%nat ->
    contactless_atr d -> p2 = 1 \/ p2 = 2 ->
    forall s3 res resp,
    sv_transmit sv s2 h p2 [0xFF; 0xCA; 0x00; 0x00; 0x00] 12 = ((res, resp), s3) ->
    (length resp <= 12)%nat ->
    (forall uid, res = 0 -> resp = uid ++ [0x90; 0x00] ->
       connect sv r s = Ret (2, mkreader h p2 (d ++ skipn (length d) (r_atr r)) (Zlen d)
         (uid ++ skipn (length uid) (r_uid r)) (Zlen uid) 2, s3)) /\
    (forall x, res = 0 -> resp = x ++ [0x6A; 0x81] ->
       connect sv r s = Ret (1, mkreader h p2 (d ++ skipn (length d) (r_atr r)) (Zlen d)
         (r_uid r) 10 1, s3)) /\
    (res <> 0 \/ (forall v, resp <> v ++ [0x90; 0x00]) /\ (forall v, resp <> v ++ [0x6A; 0x81]) ->
       exists e, connect sv r s = Ret (e, mkreader h p2 (d ++ skipn (length d) (r_atr r))
         (Zlen d) (r_uid r) 10 (r_type r), s3) /\ e < 0).
Proof.
  intros St sv r s s1 s2 h p p2 d OK C1 C2 B L CL Pr s3 res resp T LR.
  split; [|split].
  - intros uid R E. eapply connect_contactless; eassumption.
  - intros x R E. eapply connect_unsupported; eassumption.
  - intros H. eapply connect_uid_error; eassumption.
Qed.

Definition demo (atr : list Z) (resp : list Z) : svc unit :=
  mksvc (fun _ _ => ((0, 77, 2), tt)) (fun _ _ _ _ => ((0, []), tt))
    (fun _ _ _ => (0, tt)) (fun _ _ n => ((0, 2, firstn n atr), tt))
    (fun _ _ _ _ n => ((0, firstn n resp), tt)).
Example C83_ex :
  connect (demo [0x3B; 0x81; 0x80; 0x01; 0x80; 0x80] [4; 1; 2; 3; 0x90; 0]) reader0 tt
  = Ret (2, mkreader 77 2 ([0x3B; 0x81; 0x80; 0x01; 0x80; 0x80] ++ repeat 0 27) 6
          ([4; 1; 2; 3] ++ repeat 0 6) 4 2, tt) /\
  contactless_atr [0x3B; 0x81; 0x80; 0x01; 0x80; 0x80] /\
  (exists r, connect (demo [0x3B; 0x65; 0; 0; 1; 2; 3; 4; 5] []) reader0 tt = Ret (1, r, tt)).
Proof.
  split; [vm_compute; reflexivity|]. split.
  - exists 8, [0x80], 0x80. split; [lia|]. split; [cbn; lia|reflexivity].
  - eexists. vm_compute. reflexivity.
Qed.

(** ** C84: the ATR and UID buffers *)
(** Every state of a reader that connecting and disconnecting can lead to. *)
Inductive reached {St} (sv : svc St) : reader -> Prop :=
| reach_start : reached sv reader0
| reach_connect r s t r' s' : reached sv r -> connect sv r s = Ret (t, r', s') -> reached sv r'
| reach_disconnect r s t r' s' : reached sv r -> disconnect sv r s = (t, r', s') -> reached sv r'.

Theorem C84_reader_safe :
  forall St (sv : svc St) r, svc_ok sv -> reached sv r ->
    (forall s, exists t r' s', connect sv r s = Ret (t, r', s')) /\
    (forall b, (33 <= length b)%nat -> exists e b' n, get_atr r b = Ret (e, b', n) /\
       length b' = length b /\ skipn 33 b' = skipn 33 b).
Proof.
  intros St sv r OKS R.
  assert (OK : reader_ok r).
  { induction R as [|r s t r' s' _ IH E|r s t r' s' _ IH E].
    - unfold reader_ok, reader0. cbn [r_atr r_atr_len r_uid r_uid_len].
      rewrite !repeat_length. lia.
    - destruct (connect_ok sv r s OKS IH) as (t2 & r2 & s2 & E2 & O).
      rewrite E in E2. injection E2 as _ <- _. exact O.
    - pose proof (disconnect_ok sv r s IH) as O. rewrite E in O. exact O. }
  split.
  - intros s. destruct (connect_ok sv r s OKS OK) as (t & r' & s' & E & _).
    exists t, r', s'. exact E.
  - intros b Hb. destruct (get_atr_total r b OK Hb) as (e & b' & n & E & L & _ & K).
    exists e, b', n. split; [exact E|]. split; assumption.
Qed.

(** After connecting to a contact card its ATR can be read; after
    disconnecting it cannot. *)
Theorem C84_atr_exact :
  (forall St (sv : svc St) r s s1 s2 h p p2 d b r', reader_ok r ->
    sv_connect sv s 1 = ((0, h, p), s1) ->
    sv_status sv s1 h 33 = ((0, p2, d), s2) -> bytes d -> (length d <= 33)%nat -> d <> [] ->
    ~ contactless_atr d -> (33 <= length b)%nat ->
    connect sv r s = Ret (1, r', s2) ->
    get_atr r' b = Ret (0, d ++ skipn (length d) b, Some (Zlen d))) /\
  (forall St (sv : svc St) r s b r' s',
    disconnect sv r s = (0, r', s') -> get_atr r' b = Ret (1, b, None)).
Proof.
  split.
  - intros St sv r s s1 s2 h p p2 d b r' OK C1 C2 B L N NC Lb C.
    rewrite (connect_contact sv r s s1 s2 h p p2 d OK C1 C2 B L NC) in C.
    injection C as <-. apply get_atr_after; try assumption.
    rewrite app_length, skipn_length. destruct OK as [O _]. lia.
  - intros. eapply get_atr_disconnected. eassumption.
Qed.

Example C84_ex :
  get_atr (mkreader 77 2 ([0x3B; 0x60; 1; 2] ++ repeat 0 29) 4 (repeat 0 10) 0 1) (repeat 9 33)
  = Ret (0, [0x3B; 0x60; 1; 2] ++ repeat 9 29, Some 4).
Proof. vm_compute. reflexivity. Qed.

(** ** C85: reader names *)
Theorem C85_reader_list :
  forall names tail, Forall is_name names ->
    exists offs, init_readers (multi_string names ++ tail) = Ret offs /\
      length offs = length names /\
      (forall idx, 0 <= idx -> get_reader offs idx = None <-> Zlen names <= idx) /\
      (forall k n, nth_error names k = Some n -> exists o,
         get_reader offs (Z.of_nat k) = Some o /\
         text_at (multi_string names ++ tail) o n).
Proof. exact init_readers_spec. Qed.

Example C85_ex : init_readers [65; 66; 0; 67; 0; 0] = Ret [0; 3]%nat.
Proof. vm_compute. reflexivity. Qed.

(** ** C86: a failed connect gives the reader back *)
(** Missing for the full claim: a failure while the UID is read. *)
Theorem C86_failed_connect_releases_partial :
  (forall St (sv : svc St) r s h p s1,
     sv_connect sv s 1 = ((h, p), s1) -> fst h <> 0 ->
     connect (tracked sv) r (s, false) = Ret (-1, r, (s1, false))) /\
  (forall St (sv : svc St) r s h p s1 res p2 d s2 s3 b,
     reader_ok r -> sv_connect sv s 1 = ((0, h, p), s1) ->
     sv_status sv s1 h 33 = ((res, p2, d), s2) -> (length d <= 33)%nat -> res <> 0 ->
     sv_disconnect sv s2 (Some h) 2 = (0, s3) ->
     exists r', connect (tracked sv) r (s, b) = Ret (-1, r', (s3, false)) /\
       forall a, get_atr r' a = Ret (1, a, None)).
Proof.
  split.
  - intros. eapply failed_connect_free; eassumption.
  - intros. eapply failed_status_free; eassumption.
Qed.

Theorem C86_uid_failure_keeps_reader_refuted :
  exists St (sv : svc St) s t r' s', svc_ok sv /\
    (forall s, sv_disconnect sv s (Some 77) 2 = (0, s)) /\
    connect (tracked sv) reader0 (s, false) = Ret (t, r', (s', true)) /\ t < 0.
Proof.
  exists unit, (demo [0x3B; 0x81; 0x80; 0x01; 0x80; 0x80] [0x6F; 0x00]), tt, (-6).
  eexists. exists tt. split; [|split; [|split]].
  - unfold svc_ok, demo. cbn [sv_control sv_status sv_transmit fst snd].
    split; [intros; cbn; lia|]. split; intros; rewrite firstn_length; lia.
  - intros []. reflexivity.
  - vm_compute. reflexivity.
  - lia.
Qed.

Example C86_ex :
  exists r, connect (tracked (mksvc (fun (s : unit) _ => ((0, 5, 1), s))
      (fun s _ _ _ => ((0, []), s)) (fun s _ _ => (0, s))
      (fun s _ _ => ((9, 0, []), s)) (fun s _ _ _ _ => ((0, []), s)))) reader0 (tt, false)
    = Ret (-1, r, (tt, false)).
Proof. eexists. vm_compute. reflexivity. Qed.

Print Assumptions C56_property_found_partial.
Print Assumptions C56_property_cut_partial.
Print Assumptions C56_property_absent_partial.
Print Assumptions C56_property_lists_partial.
Print Assumptions C56_property_cut_other_partial.
Print Assumptions C56_property_lookup_leaves_refuted.
Print Assumptions C56_property_not_listed_refuted.
Print Assumptions C81_has_feature_exact.
Print Assumptions C81_get_feature_exact.
Print Assumptions C81_features_safe.
Print Assumptions C81_disconnect_unset_handle_refuted.
Print Assumptions C82_wait_asks.
Print Assumptions C82_wait_result.
Print Assumptions C82_wait_specific.
Print Assumptions C82_wait_again_refuted.
Print Assumptions C83_contact_card.
Print Assumptions C83_contactless_card.
Print Assumptions C84_reader_safe.
Print Assumptions C84_atr_exact.
Print Assumptions C85_reader_list.
Print Assumptions C86_failed_connect_releases_partial.
Print Assumptions C86_uid_failure_keeps_reader_refuted.
