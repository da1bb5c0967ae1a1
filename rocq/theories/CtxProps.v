(** The PC/SC context (C162) and what readers give (C163). *)
From Coq Require Import Permutation.
From Verif Require Import Base BaseLemmas BerSpec PcscModel PcscSpec PcscProofs PcscProps CtxModel.

(** The contexts that are held after calls: those established and not released since. *)
Definition held (calls : list ccall) : list Z :=
  fold_left (fun l c => match c with Established h => h :: l | Released h => remove Z.eq_dec h l end) calls [].
Definition heap_ok (h : heap) : Prop := NoDup (h_live h) /\ Forall (fun p => (p < h_next h)%nat) (h_live h).
(** A service that writes only into the buffers it is given, and that lists names. *)
Definition psvc_ok {St} (sv : psvc St) : Prop :=
  (forall k, svc_ok (ps_reader sv k)) /\
  (forall s cx n, (length (snd (fst (ps_list sv s cx n))) <= n)%nat) /\
  (forall s cx n, fst (fst (ps_list sv s cx n)) = 0 -> exists names, Forall is_name names /\ snd (fst (ps_list sv s cx n)) = multi_string names).

Lemma free_live h p : In p (h_live h) -> free h p = Ret (mkHeap (h_next h) (remove Nat.eq_dec p (h_live h))).
Proof. intros I. unfold free. destruct (in_dec Nat.eq_dec p (h_live h)); [reflexivity|contradiction]. Qed.
Lemma remove_head p l : ~ In p l -> remove Nat.eq_dec p (p :: l) = l.
Proof. intros N. rewrite remove_cons. apply notin_remove, N. Qed.
Lemma heap_fresh h : heap_ok h -> ~ In (h_next h) (h_live h).
Proof. intros (_ & F) I. rewrite Forall_forall in F. specialize (F _ I). lia. Qed.
Lemma heap_old h k : heap_ok h -> (h_next h <= k)%nat -> ~ In k (h_live h).
Proof. intros (_ & F) L I. rewrite Forall_forall in F. specialize (F _ I). lia. Qed.
Lemma populate_all_ok {St} (sv : psvc St) : (forall k, svc_ok (ps_reader sv k)) -> forall n k s, exists fs s', populate_all sv k n s = Ret (fs, s') /\ length fs = n /\ Forall feat_ok fs.
Proof.
  intros OK. induction n as [|n IH]; intros k s; cbn [populate_all]; [exists [], s; auto|].
  destruct (populate_ok (ps_reader sv k) feat0 s (OK k)) as (r & f & s1 & -> & (Of & _)).
  { unfold feat_ok, feat0. cbn [f_buf f_buf_len f_pin f_disp f_props f_props_len]. rewrite !repeat_length. lia. }
  { unfold words, feat0. cbn. auto. }
  cbn [bind]. destruct (IH (S k) s1) as (fs & s2 & -> & L & F). cbn [bind]. exists (f :: fs), s2. cbn [length]. auto.
Qed.
(** ** C162 *)
Theorem C162_init : forall St (sv : psvc St) junk h s, psvc_ok sv -> (forall n, length (junk n) = n) -> heap_ok h ->
  exists r ctx h' s' calls, pcsc_init sv junk h s = Ret (r, ctx, h', s', calls) /\ heap_ok h' /\
    ((r = 0 /\ exists p, ctx = Some p /\ held calls = [pc_context p] /\
        (exists names tail, Forall is_name names /\ pc_text p = multi_string names ++ tail /\ init_readers (pc_text p) = Ret (pc_names p) /\ length (pc_features p) = length names) /\
        Forall feat_ok (pc_features p) /\
        exists a b c, pc_strings p = Some a /\ pc_readers p = Some b /\ pc_states p = Some c /\ h_live h' = [c; b; a; pc_self p] ++ h_live h) \/
     (r = -1 /\ ctx = None /\ held calls = [] /\ h_live h' = h_live h)).
Proof.
  intros St sv junk h s (Or & Ol & On) J Oh. unfold pcsc_init. unfold alloc at 1. set (n0 := h_next h) in *.
  assert (H1 : heap_ok (mkHeap (S n0) (n0 :: h_live h))).
  { split; cbn [h_live h_next]; [constructor; [apply heap_old; [exact Oh|subst n0; lia]|apply Oh]|constructor; [lia|]]. eapply Forall_impl; [|apply Oh]. cbn beta. intros x Hx. subst n0. lia. }
  assert (R1 : forall cx s1 t, exists s2, pcsc_release sv (Some (mkPcsc n0 cx None None None t [] [])) (mkHeap (S n0) (n0 :: h_live h)) s1 = Ret (mkHeap (S n0) (h_live h), s2, [Released cx])).
  { intros cx s1 t. unfold pcsc_release. cbn [pc_context pc_strings pc_readers pc_states pc_self free_opt bind]. destruct (ps_release sv s1 cx) as [rr s2]. exists s2. rewrite free_live by (left; reflexivity). cbn [bind h_next h_live]. rewrite remove_head by (apply heap_old; [exact Oh|subst n0; lia]). reflexivity. }
  assert (O2 : heap_ok (mkHeap (S n0) (h_live h))).
  { split; cbn [h_live h_next]; [apply Oh|]. eapply Forall_impl; [|apply Oh]. cbn beta. intros x Hx. subst n0. lia. }
  cbv zeta. destruct (ps_establish sv s) as [[res cx] s1]. destruct (negb (res =? SCARD_S_SUCCESS)).
  { destruct (R1 0 s1 []) as (s2 & ->). cbn [bind]. eexists _, _, _, _, _. split; [reflexivity|]. split; [exact O2|]. right. auto. }
  destruct (ps_size sv s1 cx) as [[res2 size] s2]. destruct (negb (res2 =? SCARD_S_SUCCESS)).
  { destruct (R1 cx s2 []) as (s3 & ->). cbn [bind]. eexists _, _, _, _, _. split; [reflexivity|]. split; [exact O2|]. right. split; [reflexivity|]. split; [reflexivity|]. split; [|reflexivity]. cbn. destruct (Z.eq_dec cx cx); [reflexivity|contradiction]. }
  unfold alloc at 1. cbn [h_next h_live]. specialize (Ol s2 cx size). specialize (On s2 cx size). destruct (ps_list sv s2 cx size) as [[res3 d] s3]. cbn [fst snd] in Ol, On.
  rewrite put_0 by (rewrite J; exact Ol). cbn [bind]. destruct (negb (res3 =? SCARD_S_SUCCESS)) eqn:E3.
  { unfold pcsc_release. cbn [pc_context pc_strings pc_readers pc_states pc_self free_opt bind]. destruct (ps_release sv s3 cx) as [rr s4]. rewrite free_live by (left; reflexivity). cbn [bind h_next h_live]. rewrite remove_head.
    2:{ intros [I|I]; [lia|]. revert I. apply heap_old; [exact Oh|subst n0; lia]. }
    rewrite free_live by (left; reflexivity). cbn [bind h_next h_live]. rewrite remove_head by (apply heap_old; [exact Oh|subst n0; lia]).
    eexists _, _, _, _, _. split; [reflexivity|]. split.
    - split; cbn [h_live h_next]; [apply Oh|]. eapply Forall_impl; [|apply Oh]. cbn beta. intros x Hx. subst n0. lia.
    - right. split; [reflexivity|]. split; [reflexivity|]. split; [|reflexivity]. cbn. destruct (Z.eq_dec cx cx); [reflexivity|contradiction]. }
  destruct On as (names & Fn & ->). { unfold SCARD_S_SUCCESS in E3. lia. }
  destruct (init_readers_spec names (skipn (length (multi_string names)) (junk size)) Fn) as (offs & Eo & Lo & _ & _). rewrite Eo. cbn [bind]. unfold alloc. cbn [h_next h_live].
  destruct (populate_all_ok sv Or (length offs) 0 s3) as (fs & s4 & -> & Lf & Ff). cbn [bind]. eexists _, _, _, _, _. split; [reflexivity|]. split.
  - split; cbn [h_live h_next].
    + assert (Z0 : forall k, (n0 <= k)%nat -> ~ In k (h_live h)) by (intros; apply heap_old; [exact Oh|subst n0; lia]).
      repeat (constructor; [cbn [In]; intros I; repeat (destruct I as [I|I]; [lia|]); revert I; apply Z0; lia|]). apply Oh.
    + repeat (constructor; [lia|]). eapply Forall_impl; [|apply Oh]. cbn beta. intros x Hx. subst n0. lia.
  - left. split; [reflexivity|]. eexists. split; [reflexivity|]. cbn [pc_context pc_text pc_names pc_features pc_strings pc_readers pc_states pc_self]. split; [reflexivity|]. split.
    { eexists names, _. split; [exact Fn|]. split; [reflexivity|]. split; [exact Eo|]. lia. }
    split; [exact Ff|]. eexists _, _, _. auto.
Qed.
Print Assumptions C162_init.
(** Whatever happened to other blocks in between, releasing frees the blocks of the context and nothing else. *)
Theorem C162_release : forall St (sv : psvc St) junk h s p h1 s1 calls h2 s2, psvc_ok sv -> (forall n, length (junk n) = n) -> heap_ok h ->
  pcsc_init sv junk h s = Ret (0, Some p, h1, s1, calls) ->
  heap_ok h2 -> incl (h_live h1) (h_live h2) ->
  exists h3 s3 c, pcsc_release sv (Some p) h2 s2 = Ret (h3, s3, c) /\ held (calls ++ c) = [] /\ heap_ok h3 /\
    forall x, In x (h_live h3) <-> In x (h_live h2) /\ (In x (h_live h1) -> In x (h_live h)).
Proof.
  intros St sv junk h s p h1 s1 calls h2 s2 Osv J Oh E Oh2 I.
  destruct (C162_init St sv junk h s Osv J Oh) as (r & ctx & h' & s' & calls' & E' & Oh' & Q). rewrite E in E'. injection E' as <- <- <- <- <-.
  destruct Q as [(_ & p' & Ep & Hc & _ & _ & a & b & c & Ea & Eb & Ec & El)|(X & _)]; [|discriminate X]. injection Ep as <-.
  unfold pcsc_release. destruct (ps_release sv s2 (pc_context p)) as [rr s3]. rewrite Ea, Eb, Ec. cbn [free_opt].
  assert (ND : NoDup ([c; b; a; pc_self p] ++ h_live h)) by (rewrite <- El; apply Oh'). cbn [app] in ND. inversion ND as [|? ? N1 ND1]; subst. inversion ND1 as [|? ? N2 ND2]; subst. inversion ND2 as [|? ? N3 ND3]; subst. inversion ND3 as [|? ? N4 ND4]; subst. cbn [In] in N1, N2, N3.
  assert (Ia : In a (h_live h2)) by (apply I; rewrite El; cbn; auto). assert (Ib : In b (h_live h2)) by (apply I; rewrite El; cbn; auto). assert (Ic : In c (h_live h2)) by (apply I; rewrite El; cbn; auto). assert (Is : In (pc_self p) (h_live h2)) by (apply I; rewrite El; cbn; auto 6).
  rewrite (free_live h2 a) by exact Ia. cbn [bind].
  rewrite free_live by (cbn [h_live]; apply in_in_remove; [intuition congruence|exact Ib]). cbn [bind h_live h_next].
  rewrite free_live by (cbn [h_live]; repeat (apply in_in_remove; [intuition congruence|]); exact Ic). cbn [bind h_live h_next].
  rewrite free_live by (cbn [h_live]; repeat (apply in_in_remove; [intuition congruence|]); exact Is). cbn [bind h_live h_next].
  eexists _, _, _. split; [reflexivity|]. split; [|split].
  - unfold held in *. rewrite fold_left_app. cbn [fold_left]. rewrite Hc. cbn. destruct (Z.eq_dec (pc_context p) (pc_context p)); [reflexivity|contradiction].
  - split; cbn [h_live h_next].
    + assert (NR : forall x l, NoDup l -> NoDup (remove Nat.eq_dec x l)).
      { intros x l N. induction N as [|y l Hy N IH]; [constructor|]. cbn [remove]. destruct (Nat.eq_dec x y); [exact IH|]. constructor; [|exact IH]. intros X. apply in_remove in X as (X & _). contradiction. }
      do 4 apply NR. apply Oh2.
    + apply Forall_forall. intros x Hx. repeat (apply in_remove in Hx as (Hx & _)). destruct Oh2 as (_ & F). rewrite Forall_forall in F. apply F, Hx.
  - intros x. cbn [h_live]. rewrite El. split.
    + intros Hx. apply in_remove in Hx as (Hx & X1). apply in_remove in Hx as (Hx & X2). apply in_remove in Hx as (Hx & X3). apply in_remove in Hx as (Hx & X4). split; [exact Hx|]. cbn [app In]. intuition congruence.
    + intros (Hx & X). cbn [app In] in X. assert (K : forall y, In y [c; b; a; pc_self p] -> x <> y).
      { intros y Hy Exy. subst y. assert (In x (h_live h)) by (cbn [In] in Hy; tauto). cbn [In] in Hy. destruct Hy as [Hy|[Hy|[Hy|[Hy|[]]]]]; subst; tauto. }
      repeat (apply in_in_remove; [apply K; cbn; auto 6|]). exact Hx.
Qed.
Print Assumptions C162_release.
Example C162_again : forall St (sv : psvc St) h s, pcsc_release sv None h s = Ret (h, s, []).
Proof. reflexivity. Qed.
(** A reader service with two readers; [r] are the results of the calls. *)
Definition two_readers (r1 r2 r3 : Z) : psvc unit :=
  mkPsvc (fun s => ((r1, 42), s)) (fun s _ => ((r2, 6%nat), s)) (fun s _ n => ((r3, firstn n [65; 66; 0; 67; 0; 0]), s)) (fun s _ => (0, s)) (fun _ => demo [0x3B; 0x00] [0x90; 0x00]).
(** C162 is false in one respect: if no context could be established, context 0 is released, whoever it belongs to. *)
Theorem C162_foreign_refuted : exists (sv : psvc unit) h h' calls, psvc_ok sv /\ heap_ok h /\ pcsc_init sv (fun n => repeat 0 n) h tt = Ret (-1, None, h', tt, calls) /\ In (Released 0) calls /\ ~ In (Established 0) calls.
Proof.
  exists (mkPsvc (fun s => ((0x8010001D, 0), s)) (fun s _ => ((1, 0%nat), s)) (fun s _ _ => ((1, []), s)) (fun s _ => (0, s)) (fun _ => demo [] [])), (mkHeap 0 []), (mkHeap 1 []), [Released 0]. split; [|split; [|split; [|split]]].
  - split; [|split].
    + intros k. unfold svc_ok, demo. cbn [ps_reader sv_control sv_status sv_transmit fst snd]. split; [intros; cbn; lia|]. split; intros; rewrite firstn_length; lia.
    + intros s cx n. cbn. lia.
    + intros s cx n X. discriminate X.
  - split; constructor.
  - vm_compute. reflexivity.
  - left. reflexivity.
  - intros [X|[]]. discriminate X.
Qed.
Print Assumptions C162_foreign_refuted.
Theorem C162_own_partial : forall St (sv : psvc St) junk h s r ctx h' s' calls cx s1, ps_establish sv s = ((0, cx), s1) -> pcsc_init sv junk h s = Ret (r, ctx, h', s', calls) ->
  calls = [Established cx] \/ calls = [Established cx; Released cx].
Proof.
  intros St sv junk h s r ctx h' s' calls cx s1 E I. unfold pcsc_init in I. rewrite E in I. cbn [alloc] in I.
  assert (R : forall p hh ss x, pcsc_release sv (Some p) hh ss = Ret x -> snd x = [Released (pc_context p)]).
  { intros p hh ss x X. unfold pcsc_release in X. destruct (ps_release sv ss (pc_context p)). repeat (apply bind_Ret_inv in X as (? & _ & X)). injection X as <-. reflexivity. }
  change (negb (0 =? SCARD_S_SUCCESS)) with false in I. cbv iota in I. destruct (ps_size sv s1 cx) as [[res2 size] s2]. destruct (negb (res2 =? SCARD_S_SUCCESS)).
  { apply bind_Ret_inv in I as (x & X & I). apply R in X. destruct x as [[hh ss] cc]. cbn [snd pc_context] in X. subst cc. injection I as _ _ _ _ <-. right. reflexivity. }
  destruct (ps_list sv s2 cx size) as [[res3 d] s3]. apply bind_Ret_inv in I as (text & _ & I). destruct (negb (res3 =? SCARD_S_SUCCESS)).
  { apply bind_Ret_inv in I as (x & X & I). apply R in X. destruct x as [[hh ss] cc]. cbn [snd pc_context] in X. subst cc. injection I as _ _ _ _ <-. right. reflexivity. }
  apply bind_Ret_inv in I as (names & _ & I). apply bind_Ret_inv in I as (x & _ & I). destruct x as [fs ss]. injection I as _ _ _ _ <-. left. reflexivity.
Qed.
Print Assumptions C162_own_partial.
Example C162_ex : (let* (r, ctx, h, s, calls) := pcsc_init (two_readers 0 0 0) (fun n => repeat 7 n) (mkHeap 5 [3%nat]) tt in
    let* (h2, s2, c) := pcsc_release (two_readers 0 0 0) ctx h tt in Ret (r, pcsc_get_reader_count ctx, h_live h, h_live h2, calls ++ c)) = Ret (0, 2, [8; 7; 6; 5; 3]%nat, [3%nat], [Established 42; Released 42]) /\
  (let* (r, ctx, h, s, calls) := pcsc_init (two_readers 0 0 0x8010002E) (fun n => repeat 7 n) (mkHeap 5 [3%nat]) tt in Ret (r, pcsc_get_reader_count ctx, h_live h, calls)) = Ret (-1, 0, [3%nat], [Established 42; Released 42]).
Proof. split; vm_compute; reflexivity. Qed.

(** ** C163 *)
(** The readers of a context are those the service listed. *)
Theorem C163_readers : forall St (sv : psvc St) junk h s p h1 s1 calls, psvc_ok sv -> (forall n, length (junk n) = n) -> heap_ok h ->
  pcsc_init sv junk h s = Ret (0, Some p, h1, s1, calls) ->
  exists names tail cx sa sb sc size, ps_establish sv s = ((0, cx), sa) /\ ps_size sv sa cx = ((0, size), sb) /\ ps_list sv sb cx size = ((0, multi_string names), sc) /\
    pc_text p = multi_string names ++ tail /\ pcsc_get_reader_count (Some p) = Zlen names /\
    forall idx, 0 <= idx -> match nth_error names (Z.to_nat idx) with
      | Some n => exists o, get_reader (pc_names p) idx = Some o /\ text_at (pc_text p) o n
      | None => get_reader (pc_names p) idx = None end.
Proof.
  intros St sv junk h s p h1 s1 calls (Or & Ol & On) J Oh E. unfold pcsc_init in E. cbn [alloc] in E. cbv zeta in E.
  assert (FR : forall q hh ss cc x, (let* (h, s, c) := pcsc_release sv (Some q) hh ss in Ret (-1, @None pcsc, h, s, cc ++ c)) = Ret x -> fst (fst (fst (fst x))) = -1).
  { intros q hh ss cc x X. apply bind_Ret_inv in X as ([[? ?] ?] & _ & X). injection X as <-. reflexivity. }
  destruct (ps_establish sv s) as [[res cx] sa]. destruct (negb (res =? SCARD_S_SUCCESS)) eqn:E1; [apply FR in E; discriminate E|].
  destruct (ps_size sv sa cx) as [[res2 size] sb] eqn:S2. destruct (negb (res2 =? SCARD_S_SUCCESS)) eqn:E2; [apply FR in E; discriminate E|].
  specialize (Ol sb cx size). specialize (On sb cx size). destruct (ps_list sv sb cx size) as [[res3 d] sc] eqn:S3. cbn [fst snd] in Ol, On. rewrite put_0 in E by (rewrite J; exact Ol). cbn [bind] in E.
  destruct (negb (res3 =? SCARD_S_SUCCESS)) eqn:E3; [apply FR in E; discriminate E|]. unfold SCARD_S_SUCCESS in E1, E2, E3. assert (res = 0) by lia. assert (res2 = 0) by lia. assert (res3 = 0) by lia. subst res res2 res3.
  destruct (On eq_refl) as (names & Fn & ->). destruct (init_readers_spec names (skipn (length (multi_string names)) (junk size)) Fn) as (offs & Eo & Lo & G1 & G2). rewrite Eo in E. cbn [bind] in E.
  apply bind_Ret_inv in E as ([fs ss] & _ & E). injection E as <- _ _ _. cbn [pc_text pc_names pcsc_get_reader_count]. exists names, (skipn (length (multi_string names)) (junk size)), cx, sa, sb, sc, size. rewrite S2, S3. do 4 (split; [reflexivity|]). split; [unfold Zlen; lia|].
  intros idx Hi. destruct (nth_error names (Z.to_nat idx)) as [nm|] eqn:En.
  - destruct (G2 _ _ En) as (o & Go & T). rewrite Z2Nat.id in Go by exact Hi. eauto.
  - apply G1; [exact Hi|]. apply nth_error_None in En. unfold Zlen. lia.
Qed.
Print Assumptions C163_readers.
(** An exchange: what the card answered is at the beginning of the buffer, the rest of the buffer is as before, and the
    length is that of the answer; without success the length is unchanged. *)
Theorem C163_exchange : forall St (sv : svc St) r s tx rx rx_len, svc_ok sv -> 0 <= rx_len <= Zlen rx -> tx <> [] ->
  let '((res, d), s') := sv_transmit sv s (r_card r) (r_protocol r) tx (Z.to_nat rx_len) in
  (r_protocol r = 1 \/ r_protocol r = 2 -> res = 0 -> pcsc_trx sv r s tx rx rx_len = Ret (0, d ++ skipn (length d) rx, Zlen d, s') /\ Zlen d <= rx_len) /\
  (r_protocol r = 1 \/ r_protocol r = 2 -> res <> 0 -> exists rx', pcsc_trx sv r s tx rx rx_len = Ret (-1, rx', rx_len, s') /\ length rx' = length rx /\ skipn (Z.to_nat rx_len) rx' = skipn (Z.to_nat rx_len) rx) /\
  (r_protocol r <> 1 -> r_protocol r <> 2 -> pcsc_trx sv r s tx rx rx_len = Ret (-1, rx, rx_len, s)).
Proof.
  intros St sv r s tx rx rx_len (_ & _ & OK) R N. specialize (OK s (r_card r) (r_protocol r) tx (Z.to_nat rx_len)). unfold pcsc_trx. destruct tx as [|t0 tx]; [contradiction|]. set (tx' := t0 :: tx) in *.
  destruct (sv_transmit sv s (r_card r) (r_protocol r) tx' (Z.to_nat rx_len)) as [[res d] s']. cbn [fst snd] in OK. unfold SCARD_PROTOCOL_T0, SCARD_PROTOCOL_T1, SCARD_S_SUCCESS. unfold Zlen in R.
  rewrite put_0 by lia. cbn [bind]. split; [|split].
  - intros P ->. replace ((r_protocol r =? 1) || (r_protocol r =? 2)) with true by lia. split; [reflexivity|unfold Zlen; lia].
  - intros P Nr. replace ((r_protocol r =? 1) || (r_protocol r =? 2)) with true by lia. replace (res =? 0) with false by lia. cbn [negb]. eexists. split; [reflexivity|]. rewrite app_length, skipn_length. split; [lia|].
    rewrite skipn_app. rewrite skipn_all2 by lia. cbn [app]. replace (Z.to_nat rx_len) with ((Z.to_nat rx_len - length d) + length d)%nat at 2 by lia.
    generalize (Z.to_nat rx_len - length d)%nat as k. generalize (length d) as m. intros m k. clear R OK. revert rx. induction m as [|m IH]; intros; [now rewrite Nat.add_0_r|]. destruct rx as [|x rx]; [now rewrite !skipn_nil|]. rewrite Nat.add_succ_r. cbn [skipn]. apply IH.
  - intros P1 P2. replace ((r_protocol r =? 1) || (r_protocol r =? 2)) with false by lia. reflexivity.
Qed.
Print Assumptions C163_exchange.
Example C163_empty : forall St (sv : svc St) r s rx rx_len, pcsc_trx sv r s [] rx rx_len = Ret (-1, rx, rx_len, s).
Proof. reflexivity. Qed.
(** The state of a reader is what the service says of it when asked without a known state. *)
Theorem C163_state : forall St (change : St -> nat -> Z -> (Z * Z) * St) off s state res ev s', change s off 0 = ((res, ev), s') ->
  (res = 0 -> pcsc_reader_get_state change off s state = (0, ev, s')) /\ (res <> 0 -> pcsc_reader_get_state change off s state = (-1, state, s')).
Proof. intros St change off s state res ev s' E. unfold pcsc_reader_get_state. rewrite E. unfold SCARD_S_SUCCESS. split; intros X; [subst; reflexivity|]. replace (res =? 0) with false by lia. reflexivity. Qed.
Print Assumptions C163_state.
Example C163_ex : pcsc_trx (demo [0x3B; 0x00] [0x61; 0x10]) (mkreader 77 2 (repeat 0 33) 0 (repeat 0 10) 0 1) tt [0; 0xB2; 1; 0x0C; 0] [1; 2; 3; 4] 4 = Ret (0, [0x61; 0x10; 3; 4], 2, tt).
Proof. vm_compute. reflexivity. Qed.
