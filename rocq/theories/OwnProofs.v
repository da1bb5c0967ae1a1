(** Lemmas on who owns the applications. *)
From Verif Require Import Base BaseLemmas BerModel TlvListModel TlvListProofs TlvModel DolModel TtlModel FieldsModel AppModel AppSpec
  AppProofs TalModel EmvModel OwnModel OwnSpec.

Lemma untouched_refl h others : untouched h h others.
Proof. intros a _. reflexivity. Qed.
Lemma untouched_trans h1 h2 h3 others : untouched h1 h2 others -> untouched h2 h3 others -> untouched h1 h3 others.
Proof. intros A B a Ha. rewrite B by exact Ha. auto. Qed.
Lemma live_lt h a : live h a -> (a < length h)%nat.
Proof. intros (n & E). exact (anth_lt _ _ _ E). Qed.
Lemma holds_lt h l apps others a : holds h l apps others -> In a others -> (a < length h)%nat.
Proof. intros (cs & _ & _ & _ & L) Ha. apply (live_lt h). apply L, in_or_app. auto. Qed.
Lemma holds_fuel h l cs : arep h l cs -> (length cs < S (length h))%nat.
Proof. intros (C & _ & N). pose proof (chain_length _ _ _ C N). lia. Qed.

Lemma nth_snoc {A} (h : list A) e a : nth_error (h ++ [e]) a = if Nat.eqb a (length h) then Some e else nth_error h a.
Proof.
  destruct (Nat.eqb_spec a (length h)) as [->|Hn].
  - rewrite nth_error_app2 by lia. now rewrite Nat.sub_diag.
  - destruct (Nat.lt_ge_cases a (length h)) as [Hl|Hg]; [now rewrite nth_error_app1 by lia|].
    rewrite nth_error_app2 by lia. assert (E : nth_error h a = None) by (apply nth_error_None; lia). rewrite E.
    apply nth_error_None. cbn [length]. lia.
Qed.

(** A node in a list of its own, and one that is freed at once. *)
Lemma holds_alloc h l apps others a : holds h l apps others ->
  holds (h ++ [Some (mkAN a None)]) l apps (length h :: others) /\
  loose (h ++ [Some (mkAN a None)]) (length h) a /\ ~ In (length h) others /\
  untouched h (h ++ [Some (mkAN a None)]) others.
Proof.
  intros H. pose proof H as (cs & R & M & N & L).
  assert (Hlt : forall b, In b (map fst cs ++ others) -> (b < length h)%nat) by (intros b Hb; apply live_lt, L, Hb).
  split; [|split; [|split]].
  - exists cs. split; [|split; [exact M|split]].
    + apply (arep_frame h); [exact R|]. intros b Hb. rewrite nth_snoc.
      destruct (Nat.eqb_spec b (length h)) as [->|]; [|reflexivity].
      exfalso. specialize (Hlt (length h) ltac:(apply in_or_app; auto)). lia.
    + apply NoDup_Add with (a := length h) (l := map fst cs ++ others); [apply Add_app|]. split; [exact N|].
      intros Hb. apply Hlt in Hb. lia.
    + intros b. unfold live. rewrite nth_snoc, in_app_iff. cbn [In]. destruct (Nat.eqb_spec b (length h)) as [->|Hn].
      * split; [auto|]. intros _. eauto.
      * fold (live h b). rewrite L, in_app_iff. split; [tauto|]. intros [?|[E|?]]; [auto|congruence|auto].
  - unfold loose. now rewrite nth_snoc, Nat.eqb_refl.
  - intros Hb. specialize (Hlt (length h) ltac:(apply in_or_app; auto)). lia.
  - intros b Hb. rewrite nth_snoc. destruct (Nat.eqb_spec b (length h)) as [->|]; [|reflexivity].
    specialize (Hlt (length h) ltac:(apply in_or_app; auto)). lia.
Qed.
Lemma holds_free h l apps p a others : holds h l apps (p :: others) -> loose h p a ->
  exists h', app_free h p = Ret (0, h') /\ holds h' l apps others /\ untouched h h' others /\ ~ live h' p /\
    length h' = length h /\ forall b, b <> p -> nth_error h' b = nth_error h b.
Proof.
  intros (cs & R & M & N & L) Lo. unfold app_free. rewrite (proj2 (aload_nth _ _ _) Lo). cbn [bind an_next].
  pose proof (anth_lt _ _ _ Lo) as Hp.
  assert (F : forall b, b <> p -> nth_error (upd h p None) b = nth_error h b).
  { intros b Hb. rewrite nth_error_upd. destruct (Nat.eqb_spec p b); congruence. }
  assert (D : nth_error (upd h p None) p = Some None).
  { rewrite nth_error_upd, Nat.eqb_refl. destruct (Nat.ltb_spec p (length h)); [reflexivity|lia]. }
  pose proof (NoDup_remove_2 _ _ _ N) as Np. pose proof (NoDup_remove_1 _ _ _ N) as N'. rewrite in_app_iff in Np.
  eexists. split; [reflexivity|]. split; [|split; [|split; [|split; [apply upd_length|exact F]]]].
  - exists cs. split; [|split; [exact M|split; [exact N'|]]].
    + apply (arep_frame h); [exact R|]. intros b Hb. apply F. intros ->. tauto.
    + intros b. destruct (Nat.eq_dec b p) as [->|Hb].
      * unfold live. rewrite D, in_app_iff. split; [intros (n & E); discriminate|tauto].
      * unfold live. rewrite F by exact Hb. fold (live h b). rewrite L, !in_app_iff. cbn [In].
        split; [|tauto]. intros [?|[E|?]]; [auto|congruence|auto].
  - intros b Hb. apply F. intros ->. tauto.
  - intros (n & E). rewrite D in E. discriminate.
Qed.
Lemma free_new h a : app_free (h ++ [Some (mkAN a None)]) (length h) = Ret (0, upd (h ++ [Some (mkAN a None)]) (length h) None).
Proof.
  unfold app_free. assert (E : aload (h ++ [Some (mkAN a None)]) (length h) = Ret (mkAN a None))
    by (apply aload_nth; now rewrite nth_snoc, Nat.eqb_refl).
  rewrite E. reflexivity.
Qed.

(** Linking a node into the list. *)
Lemma holds_push h l apps p a others : holds h l apps (p :: others) -> loose h p a ->
  exists h' l', alist_push h l p = Ret (0, h', l') /\ holds h' l' (apps ++ [a]) others /\ untouched h h' others.
Proof.
  intros (cs & R & M & N & L) Lo.
  pose proof (NoDup_remove_2 _ _ _ N) as Np. pose proof (NoDup_remove_1 _ _ _ N) as N'. rewrite in_app_iff in Np.
  destruct (apush_spec h l cs p a None R Lo ltac:(tauto)) as (h' & l' & E & R' & F & Lh).
  exists h', l'. split; [exact E|]. split.
  - exists (cs ++ [(p, a)]). split; [exact R'|]. split; [rewrite map_app, M; reflexivity|]. split.
    + rewrite map_app, <- app_assoc. exact N.
    + intros b. rewrite map_app, <- app_assoc. cbn [map fst app]. rewrite <- L.
      destruct (in_dec Nat.eq_dec b (p :: map fst cs)) as [Hb|Hb].
      * split; intros _.
        -- apply L, in_or_app. cbn [In] in *. destruct Hb as [<-|Hb]; auto.
        -- destruct R' as (C' & _ & _).
           assert (Hc : In b (map fst (cs ++ [(p, a)]))).
           { rewrite map_app. apply in_or_app. cbn [map fst In] in *. destruct Hb as [<-|Hb]; auto. }
           apply in_map_iff in Hc. destruct Hc as ([b' bp] & <- & Hc).
           destruct (chain_live _ _ _ _ _ C' Hc) as (nx & En). eexists. exact En.
      * unfold live. rewrite F by exact Hb. tauto.
  - intros b Hb. apply F. intros [<-|Hc]; [tauto|]. apply NoDup_remove_1 in N.
    clear - N' Hb Hc. induction (map fst cs) as [|c r IH]; [destruct Hc|].
    cbn [app] in N'. inversion N' as [|? ? Nc Nr]; subst. destruct Hc as [->|Hc]; [|auto].
    apply Nc, in_or_app. auto.
Qed.

Lemma nodup_disjoint {A} (l1 l2 : list A) x : NoDup (l1 ++ l2) -> In x l1 -> ~ In x l2.
Proof.
  induction l1 as [|y l1 IH]; intros N H; [destruct H|]. cbn [app] in N. inversion N as [|? ? Ny Nr]; subst.
  destruct H as [->|H]; [|auto]. intros Hx. apply Ny, in_or_app. auto.
Qed.

Lemma holds_clear h l apps others : holds h l apps others ->
  exists h', alist_clear (S (length h)) h l = Ret (h', alist_init) /\ holds h' alist_init [] others /\ untouched h h' others.
Proof.
  intros (cs & R & M & N & L).
  destruct (clear_spec h l cs (S (length h)) R (holds_fuel _ _ _ R)) as (h' & E & D & F).
  exists h'. split; [exact E|]. assert (U : untouched h h' others).
  { intros b Hb. apply F. intros Hc. exact (nodup_disjoint _ _ _ N Hc Hb). }
  split; [|exact U]. exists []. split; [apply arep_init|]. split; [reflexivity|]. cbn [map app]. split.
  - clear - N. induction (map fst cs) as [|c r IH]; [exact N|]. cbn [app] in N. inversion N; auto.
  - intros b. destruct (in_dec Nat.eq_dec b (map fst cs)) as [Hb|Hb].
    + unfold live. rewrite D by exact Hb. split; [intros (n & En); discriminate|].
      intros Ho. exfalso. exact (nodup_disjoint _ _ _ N Hb Ho).
    + unfold live. rewrite F by exact Hb. fold (live h b). rewrite L, in_app_iff. tauto.
Qed.

Lemma holds_sort h l apps others : holds h l apps others ->
  exists h' l', alist_sort_priority (S (length h)) h l = Ret (0, h', l') /\
    holds h' l' (sort_priority apps) others /\ untouched h h' others.
Proof.
  intros (cs & R & M & N & L). pose proof (holds_fuel _ _ _ R) as Hf.
  destruct (sort_spec h l cs _ R Hf) as (h' & l' & cs' & E & R' & F & P & _).
  destruct (sort_refines h l cs _ R Hf) as (h2 & l2 & cs2 & E2 & R2 & M2).
  rewrite E in E2. injection E2 as <- <-.
  assert (cs' = cs2) as -> by (destruct R' as (C1 & _), R2 as (C2 & _); eapply chain_det; eassumption).
  exists h', l'. split; [exact E|].
  assert (U : untouched h h' others).
  { intros b Hb. apply F. intros Hc. exact (nodup_disjoint _ _ _ N Hc Hb). }
  assert (Pf : Permutation (map fst cs) (map fst cs2)) by (apply Permutation_map, P).
  split; [|exact U]. exists cs2. split; [exact R'|]. split; [now rewrite M2, M|]. split.
  - eapply Permutation_NoDup; [|exact N]. apply Permutation_app_tail, Pf.
  - intros b. destruct (in_dec Nat.eq_dec b (map fst cs)) as [Hb|Hb].
    + assert (Hb' : In b (map fst cs2)) by (eapply Permutation_in; eassumption).
      rewrite in_app_iff. split; [auto|]. intros _.
      apply in_map_iff in Hb'. destruct Hb' as ([b' bp] & <- & Hc). destruct R' as (C' & _).
      destruct (chain_live _ _ _ _ _ C' Hc) as (nx & En). eexists. exact En.
    + unfold live. rewrite F by exact Hb. fold (live h b). rewrite L, !in_app_iff.
      assert (~ In b (map fst cs2)).
      { intros Hc. apply Hb. eapply Permutation_in; [symmetry; exact Pf|exact Hc]. }
      tauto.
Qed.

Lemma holds_remove h l apps others index : holds h l apps others ->
  match remove_nth index apps with
  | None => alist_remove_index (S (length h)) h l index = Ret (None, h, l)
  | Some (a, rest) => exists p h' l', alist_remove_index (S (length h)) h l index = Ret (Some p, h', l') /\
      holds h' l' rest (p :: others) /\ loose h' p a /\ untouched h h' others
  end.
Proof.
  intros (cs & R & M & N & L).
  destruct (remove_spec h l cs index _ R (holds_fuel _ _ _ R)) as [(Hi & E)|(p1 & c & p2 & h' & l' & -> & Hi & E & R' & Lo & F & Lh)].
  - unfold remove_nth. assert (En : nth_error apps index = None).
    { apply nth_error_None. rewrite <- M, map_length. exact Hi. }
    rewrite En. exact E.
  - assert (Er : remove_nth index apps = Some (snd c, map snd (p1 ++ p2))).
    { unfold remove_nth. rewrite <- M, map_app. cbn [map].
      assert (Li : index = length (map snd p1)) by (now rewrite map_length). rewrite Li.
      rewrite nth_error_app2, Nat.sub_diag by lia. cbn [nth_error].
      rewrite firstn_app, Nat.sub_diag, firstn_all, app_nil_r.
      replace (S (length (map snd p1))) with (length (map snd p1 ++ [snd c])) by (rewrite app_length; cbn [length]; lia).
      rewrite map_app. f_equal. f_equal. f_equal.
      change (snd c :: map snd p2) with ([snd c] ++ map snd p2). rewrite app_assoc, skipn_app, skipn_all, Nat.sub_diag.
      reflexivity. }
    rewrite Er. exists (fst c), h', l'. split; [exact E|].
    rewrite map_app in N, L, F. cbn [map] in N, L, F. rewrite <- app_assoc in N. cbn [app] in N.
    assert (U : untouched h h' others).
    { intros b Hb. apply F. intros Hc. refine (nodup_disjoint (map fst p1 ++ fst c :: map fst p2) others b _ Hc Hb).
      rewrite <- app_assoc. exact N. }
    split; [|split; [exact Lo|exact U]]. exists (p1 ++ p2). split; [exact R'|]. split; [reflexivity|]. split.
    + rewrite map_app, <- app_assoc. apply NoDup_remove in N. destruct N as (N & Nc).
      apply NoDup_Add with (a := fst c) (l := map fst p1 ++ map fst p2 ++ others); [|auto].
      rewrite !app_assoc. apply Add_app.
    + intros b. rewrite map_app, !in_app_iff. cbn [In].
      destruct (in_dec Nat.eq_dec b (map fst p1 ++ fst c :: map fst p2)) as [Hb|Hb].
      * split; [|intros _].
        -- intros _. rewrite in_app_iff in Hb. cbn [In] in Hb. tauto.
        -- destruct (Nat.eq_dec b (fst c)) as [->|Hn]; [eexists; exact Lo|].
           assert (Hc : In b (map fst (p1 ++ p2))).
           { rewrite map_app, in_app_iff. rewrite in_app_iff in Hb. cbn [In] in Hb. destruct Hb as [?|[Eb|?]]; [auto|congruence|auto]. }
           apply in_map_iff in Hc. destruct Hc as ([b' bp] & <- & Hc). destruct R' as (C' & _).
           destruct (chain_live _ _ _ _ _ C' Hc) as (nx & En). eexists. exact En.
      * unfold live. rewrite F by exact Hb. fold (live h b). rewrite L, !in_app_iff. cbn [In].
        rewrite in_app_iff in Hb. cbn [In] in Hb. tauto.
Qed.

Lemma holds_empty h l apps others : holds h l apps others ->
  alist_is_empty l = match apps with [] => true | _ :: _ => false end.
Proof.
  intros (cs & R & M & _). unfold alist_is_empty. rewrite (arep_valid _ _ _ R). cbn [negb].
  destruct R as (C & _). destruct cs as [|c cs]; subst apps; cbn [map].
  - apply chain_nil_head in C. now rewrite C.
  - apply chain_head in C. now rewrite C.
Qed.

(** ** The functions over nodes go in step with those over values *)
Lemma step_bind {A B C D} (R : A -> B -> Prop) (Q : C -> D -> Prop) m m' k k' :
  in_step R m m' -> (forall a b, R a b -> in_step Q (k a) (k' b)) -> in_step Q (bind m k) (bind m' k').
Proof.
  unfold in_step at 1. destruct m as [a| |]; intros H K; cbn [bind].
  - destruct H as (b & -> & Hr). cbn [bind]. auto.
  - rewrite H. reflexivity.
  - rewrite H. reflexivity.
Qed.
Lemma step_same {A C D} (Q : C -> D -> Prop) (m : out A) k k' :
  (forall a, in_step Q (k a) (k' a)) -> in_step Q (bind m k) (bind m k').
Proof. destruct m as [a| |]; intros K; cbn [bind]; [apply K|reflexivity|reflexivity]. Qed.
Lemma step_ret {A B} (R : A -> B -> Prop) a b : R a b -> in_step R (Ret a) (Ret b).
Proof. intros H. exists b. auto. Qed.
Lemma step_weaken {A B} (R Q : A -> B -> Prop) m m' : (forall a b, R a b -> Q a b) -> in_step R m m' -> in_step Q m m'.
Proof. intros H. unfold in_step. destruct m; [|auto|auto]. intros (b & -> & Hr). eauto. Qed.

Definition made (h : aheap) (l : alist) (apps : list emvapp) (others : list nat) (a : option emvapp) (ph : option nat * aheap) : Prop :=
  let (p, h') := ph in
  untouched h h' others /\
  match a, p with
  | None, None => holds h' l apps others
  | Some a, Some p => holds h' l apps (p :: others) /\ loose h' p a
  | _, _ => False
  end.
Lemma create_step h l apps others m : holds h l apps others ->
  in_step (made h l apps others) m (create_h m h).
Proof.
  intros H. unfold create_h. destruct m as [[a|]| |]; cbn [bind]; unfold alloc; [| |reflexivity|reflexivity].
  - destruct (holds_alloc _ _ _ _ a H) as (H' & Lo & _ & U). apply step_ret. cbn [made]. auto.
  - destruct (holds_alloc _ _ _ _ unfilled H) as (H' & Lo & _ & U).
    destruct (holds_free _ _ _ _ _ _ H' Lo) as (h' & E & Hh & U' & _). rewrite E. cbn [bind].
    apply step_ret. cbn [made]. split; [eapply untouched_trans; eassumption|exact Hh].
Qed.

Section Step.
Context {T : Type} (x : transport T) (junk : list Z) (others : list nat).

Definition rel1 (h0 : aheap) (apps : list emvapp) (hl : aheap * alist) : Prop :=
  let (h, l) := hl in holds h l apps others /\ untouched h0 h others.
Definition rel2 (h0 : aheap) (v : Z * list emvapp) (w : Z * aheap * alist) : Prop :=
  let (r, apps) := v in let '(r', h, l) := w in r' = r /\ holds h l apps others /\ untouched h0 h others.
Definition rel3 (h0 : aheap) (v : Z * list emvapp * T) (w : Z * aheap * alist * T) : Prop :=
  let '(r, apps, s) := v in let '(r', h, l, s') := w in
  r' = r /\ s' = s /\ holds h l apps others /\ untouched h0 h others.

Lemma rel1_trans h0 h1 v w : untouched h0 h1 others -> rel1 h1 v w -> rel1 h0 v w.
Proof. destruct w as [h l]. intros U (H & U'). split; [exact H|]. eapply untouched_trans; eassumption. Qed.
Lemma rel3_trans h0 h1 v w : untouched h0 h1 others -> rel3 h1 v w -> rel3 h0 v w.
Proof.
  destruct v as [[r apps] s], w as [[[r' h] l] s']. intros U (-> & -> & H & U').
  repeat (split; [reflexivity || assumption|]). eapply untouched_trans; eassumption.
Qed.

Lemma load_new h p a : loose h p a -> aload h p = Ret (mkAN a None).
Proof. intros L. now apply aload_nth. Qed.

Lemma aef_loop_step pse supported : forall fuel itr apps h l, holds h l apps others ->
  in_step (rel1 h) (aef_loop junk fuel itr pse supported apps) (aef_loop_h junk fuel itr pse supported h l).
Proof.
  induction fuel as [|fuel IH]; intros itr apps h l H; [reflexivity|]. cbn [aef_loop aef_loop_h].
  apply step_same. intros [[r t] itr'].
  destruct (r <=? 0); [apply step_ret; split; [exact H|apply untouched_refl]|].
  destruct t as [t|]; [|reflexivity].
  destruct (negb (b_tag t =? 0x61)); [now apply IH|].
  eapply step_bind; [apply (create_step h l apps others _ H)|].
  intros a [p h1] (U & Hm). destruct a as [a|], p as [p|]; try contradiction.
  - destruct Hm as (H1 & Lo). rewrite (load_new _ _ _ Lo). cbn [bind an_app].
    apply step_same. intros [|].
    + destruct (holds_push _ _ _ _ _ _ H1 Lo) as (h2 & l2 & E & H2 & U2). rewrite E. cbn [bind].
      eapply step_weaken; [intros v w; apply rel1_trans; eapply untouched_trans; eassumption|]. now apply IH.
    + destruct (holds_free _ _ _ _ _ _ H1 Lo) as (h2 & E & H2 & U2 & _). rewrite E. cbn [bind].
      eapply step_weaken; [intros v w; apply rel1_trans; eapply untouched_trans; eassumption|]. now apply IH.
  - eapply step_weaken; [intros v w; apply rel1_trans; exact U|]. now apply IH.
Qed.
Lemma parse_aef_step pse rec supported apps h l : holds h l apps others ->
  in_step (rel2 h) (parse_aef_record junk pse rec supported apps) (parse_aef_record_h junk pse rec supported h l).
Proof.
  intros H. unfold parse_aef_record, parse_aef_record_h. apply step_same. intros [r t].
  destruct (r <=? 0); [apply step_ret; split; [reflexivity|split; [exact H|apply untouched_refl]]|].
  destruct t as [t|]; [|reflexivity].
  destruct (negb (b_tag t =? 0x70)); [apply step_ret; split; [reflexivity|split; [exact H|apply untouched_refl]]|].
  eapply step_bind; [apply aef_loop_step, H|]. intros apps' [h' l'] (H' & U). apply step_ret. split; auto.
Qed.
Lemma pse_loop_step sfi pse supported : forall fuel s rec apps h l, holds h l apps others ->
  in_step (rel3 h) (pse_loop x junk fuel s sfi rec pse supported apps) (pse_loop_h x junk fuel s sfi rec pse supported h l).
Proof.
  induction fuel as [|fuel IH]; intros s rec apps h l H; [reflexivity|]. cbn [pse_loop pse_loop_h].
  apply step_same. intros a.
  assert (Keep : forall r s', in_step (rel3 h) (Ret (r, apps, s')) (Ret (r, h, l, s'))).
  { intros. apply step_ret. repeat (split; [reflexivity || exact H|]). apply untouched_refl. }
  destruct (negb (n_ret a =? 0)); [apply Keep|]. destruct (n_sw a =? 0x6A83); [apply Keep|].
  destruct (negb (n_sw a =? 0x9000)); [now apply IH|].
  eapply step_bind; [apply parse_aef_step, H|]. intros [r apps'] [[r' h'] l'] (-> & H' & U).
  destruct (r <? 0); [apply step_ret; repeat (split; [reflexivity || assumption|]); exact U|].
  eapply step_weaken; [intros v w; apply rel3_trans; exact U|]. now apply IH.
Qed.
Lemma read_pse_step fuel s supported apps h l : holds h l apps others ->
  in_step (rel3 h) (read_pse x junk fuel s supported apps) (read_pse_h x junk fuel s supported h l).
Proof.
  intros H. unfold read_pse, read_pse_h. apply step_same. intros a. cbv zeta.
  assert (Keep : forall r s', in_step (rel3 h) (Ret (r, apps, s')) (Ret (r, h, l, s'))).
  { intros. apply step_ret. repeat (split; [reflexivity || exact H|]). apply untouched_refl. }
  destruct (negb (n_ret a =? 0)); [apply Keep|]. destruct (n_sw a =? 0x6A81); [apply Keep|].
  destruct (n_sw a =? 0x6A82); [apply Keep|]. destruct (n_sw a =? 0x6283); [apply Keep|].
  destruct (negb (n_sw a =? 0x9000)); [apply Keep|].
  apply step_same. intros [r pse].
  eapply step_bind with (R := rel3 h).
  - destruct (r <? 0); [apply Keep|]. destruct (find_tag 0x88 pse) as [f|]; [|apply Keep].
    destruct (negb (f_len f =? 1)); [apply Keep|]. apply step_same. intros sfi. now apply pse_loop_step.
  - intros [[r1 apps1] s1] [[[r2 h2] l2] s2] (-> & -> & H2 & U2).
    destruct (r1 =? 0); [apply step_ret; repeat (split; [reflexivity || assumption|]); exact U2|].
    destruct (holds_clear _ _ _ _ H2) as (h3 & E & H3 & U3). rewrite E. cbn [bind].
    apply step_ret. repeat (split; [reflexivity || assumption|]). eapply untouched_trans; eassumption.
Qed.
Lemma find_loop_step : forall fuel s aids exact apps h l, holds h l apps others ->
  in_step (rel3 h) (find_loop x junk fuel s aids exact apps) (find_loop_h x junk fuel s aids exact h l).
Proof.
  induction fuel as [|fuel IH]; intros s aids exact apps h l H; [reflexivity|]. cbn [find_loop find_loop_h].
  assert (Keep : forall r s', in_step (rel3 h) (Ret (r, apps, s')) (Ret (r, h, l, s'))).
  { intros. apply step_ret. repeat (split; [reflexivity || exact H|]). apply untouched_refl. }
  destruct aids as [|aid rest]; [apply Keep|]. apply step_same. intros name. apply step_same. intros a. cbv zeta.
  destruct (negb (n_ret a =? 0)); [apply Keep|]. destruct (exact && (n_sw a =? 0x6A81))%bool; [apply Keep|].
  destruct (negb (n_sw a =? 0x9000) && negb (n_sw a =? 0x6283))%bool; [now apply IH|].
  eapply step_bind; [apply (create_step h l apps others _ H)|].
  intros b [p h1] (U & Hm). destruct b as [b|], p as [p|]; try contradiction.
  - destruct Hm as (H1 & Lo). rewrite (load_new _ _ _ Lo). cbn [bind an_app].
    destruct (holds_push _ _ _ _ _ _ H1 Lo) as (h2 & l2 & E2 & H2 & U2).
    destruct (holds_free _ _ _ _ _ _ H1 Lo) as (h3 & E3 & H3 & U3 & _). rewrite E2, E3. cbn [bind].
    pose proof (untouched_trans _ _ _ _ U U2) as U2'. pose proof (untouched_trans _ _ _ _ U U3) as U3'.
    destruct (f_len aid =? f_len (a_aid b)); [|destruct (f_flags aid =? 1)];
      [destruct (n_sw a =? 0x9000)|destruct (n_sw a =? 0x9000)|];
      first [ eapply step_weaken; [intros v w; apply rel3_trans; exact U2'|]; now apply IH
            | eapply step_weaken; [intros v w; apply rel3_trans; exact U3'|]; now apply IH ].
  - eapply step_weaken; [intros v w; apply rel3_trans; exact U|]. now apply IH.
Qed.
Lemma build_step fuel s c apps h l : holds h l apps others ->
  in_step (rel3 h) (build_candidate_list x junk fuel s c apps) (build_candidate_list_h x junk fuel s c h l).
Proof.
  intros H. unfold build_candidate_list, build_candidate_list_h.
  eapply step_bind; [apply read_pse_step, H|]. intros [[r1 apps1] s1] [[[r2 h1] l1] s2] (-> & -> & H1 & U1).
  destruct (r1 <? 0); [apply step_ret; repeat (split; [reflexivity || assumption|]); exact U1|].
  eapply step_bind with (R := rel3 h1).
  - rewrite (holds_empty _ _ _ _ H1). destruct apps1 as [|a1 apps1].
    + now apply find_loop_step.
    + apply step_ret. repeat (split; [reflexivity || assumption|]). apply untouched_refl.
  - intros [[r3 apps3] s3] [[[r4 h3] l3] s4] (-> & -> & H3 & U3).
    pose proof (untouched_trans _ _ _ _ U1 U3) as U.
    destruct (negb (r3 =? 0)); [apply step_ret; repeat (split; [reflexivity || assumption|]); exact U|].
    rewrite (holds_empty _ _ _ _ H3). destruct apps3 as [|a3 apps3];
      [apply step_ret; repeat (split; [reflexivity || assumption|]); exact U|].
    destruct (holds_sort _ _ _ _ H3) as (h5 & l5 & E & H5 & U5). rewrite E. cbn [bind].
    apply step_ret. repeat (split; [reflexivity || assumption|]). eapply untouched_trans; eassumption.
Qed.

(** The selected application and the rest. *)
Definition rel_sel (h0 : aheap) (l : alist) (apps : list emvapp) (v : Z * option emvapp * T) (w : Z * option nat * aheap * T) : Prop :=
  let '(r, a, s) := v in let '(r', p, h, s') := w in
  r' = r /\ s' = s /\ holds h l apps (ptr p ++ others) /\ selected h p a /\ untouched h0 h others /\
  (r <> 0 -> a = None).
Lemma select_app_step s aid h l apps : holds h l apps others ->
  in_step (rel_sel h l apps) (select_app x junk s aid) (select_app_h x junk s aid h).
Proof.
  intros H. unfold select_app, select_app_h.
  assert (Keep : forall r s', in_step (rel_sel h l apps) (Ret (r, None, s')) (Ret (r, None, h, s'))).
  { intros. apply step_ret. repeat (split; [reflexivity || exact H|]). split; [apply untouched_refl|auto]. }
  destruct ((Zlen aid <? 5) || (16 <? Zlen aid))%bool; [apply Keep|]. apply step_same. intros a. cbv zeta.
  destruct (negb (n_ret a =? 0)); [apply Keep|].
  destruct (negb (n_sw a =? 0x9000)).
  { destruct (n_sw a =? 0x6A81); [apply Keep|]. destruct (n_sw a =? 0x6A82); [apply Keep|].
    destruct (n_sw a =? 0x6283); apply Keep. }
  eapply step_bind; [apply (create_step h l apps others _ H)|].
  intros b [p h1] (U & Hm). destruct b as [b|], p as [p|]; try contradiction.
  - destruct Hm as (H1 & Lo). rewrite (load_new _ _ _ Lo). cbn [bind an_app].
    destruct (holds_free _ _ _ _ _ _ H1 Lo) as (h3 & E3 & H3 & U3 & _). rewrite E3. cbn [bind].
    pose proof (untouched_trans _ _ _ _ U U3) as U3'.
    assert (Drop : forall r, in_step (rel_sel h l apps) (Ret (r, None, n_st a)) (Ret (r, None, h3, n_st a))).
    { intros. apply step_ret. repeat (split; [reflexivity || assumption|]). auto. }
    destruct (negb (f_len (a_aid b) =? Zlen aid)); [cbn [bind negb]; apply Drop|].
    apply step_same. intros [|]; cbn [negb]; [|apply Drop].
    apply step_ret. repeat (split; [reflexivity || assumption|]). intros Hz. congruence.
  - apply step_ret. repeat (split; [reflexivity || assumption|]). auto.
Qed.

Definition rel_ctx (h0 : aheap) (v : Z * list emvapp * ctx * T) (w : Z * option nat * aheap * alist * T) : Prop :=
  let '(r, apps, c, s) := v in let '(r', p, h, l, s') := w in
  r' = r /\ s' = s /\ holds h l apps (ptr p ++ others) /\ selected h p (option_map fst (k_app c)) /\ untouched h0 h others.
Lemma untouched_ptr h h' p : untouched h h' (ptr p ++ others) -> untouched h h' others.
Proof. intros U a Ha. apply U, in_or_app. auto. Qed.
Lemma unselect h l apps sel a : holds h l apps (ptr sel ++ others) -> selected h sel a ->
  exists h', match sel with Some p => app_free h p | None => Ret (0, h) end = Ret (0, h') /\
    holds h' l apps others /\ untouched h h' others.
Proof.
  intros H S. destruct sel as [p|]; cbn [ptr app] in H.
  - destruct a as [a|]; [|contradiction]. destruct (holds_free _ _ _ _ _ _ H S) as (h' & E & H' & U & _). eauto.
  - exists h. split; [reflexivity|]. split; [exact H|]. intros b Hb. reflexivity.
Qed.
Lemma select_step s c sel apps h l index : holds h l apps (ptr sel ++ others) ->
  selected h sel (option_map fst (k_app c)) ->
  in_step (rel_ctx h) (select_application x junk s c apps index) (select_application_h x junk s sel h l index).
Proof.
  intros H S. unfold select_application, select_application_h. cbv zeta.
  destruct (unselect _ _ _ _ _ H S) as (h0 & E0 & H0 & U0). rewrite E0. cbn [bind]. change (negb (0 =? 0)) with false. cbv iota.
  pose proof (holds_remove _ _ _ _ index H0) as Hr. destruct (remove_nth index apps) as [[cur rest]|].
  - destruct Hr as (p & h1 & l1 & E1 & H1 & Lo & U1). rewrite E1. cbn [bind].
    rewrite (load_new _ _ _ Lo). cbn [bind an_app]. pose proof (untouched_trans _ _ _ _ U0 U1) as U01.
    destruct (holds_free _ _ _ _ _ _ H1 Lo) as (h2 & E2 & H2 & U2 & _). rewrite E2. cbn [bind].
    pose proof (untouched_trans _ _ _ _ U01 U2) as U02.
    assert (Et : try_again_h l1 = try_again rest).
    { unfold try_again_h, try_again. rewrite (holds_empty _ _ _ _ H2). destruct rest; reflexivity. }
    destruct (16 <? f_len (a_aid cur)).
    { rewrite Et. apply step_ret. repeat (split; [reflexivity || assumption|]). exact U02. }
    apply step_same. intros aid.
    eapply step_bind; [apply (select_app_step s aid h2 l1 rest H2)|].
    intros [[r a] s1] [[[r' q] h3] s2] (-> & -> & H3 & S3 & U3 & Hn). pose proof (untouched_trans _ _ _ _ U02 U3) as U.
    destruct (Z.eqb_spec r 0) as [->|Hz].
    + apply step_ret. split; [reflexivity|]. split; [reflexivity|]. split; [exact H3|]. split; [|exact U].
      cbn [k_app]. destruct a; exact S3.
    + rewrite (Hn Hz) in S3. destruct (r <? 0); [|rewrite Et];
        (apply step_ret; repeat (split; [reflexivity || assumption|]); exact U).
  - rewrite Hr. cbn [bind]. apply step_ret. repeat (split; [reflexivity || assumption|]). exact U0.
Qed.

End Step.

Section History.
Context {T : Type} (x : transport T) (junk : list Z) (others : list nat).
Lemma selected_untouched h h' sel a : untouched h h' (ptr sel ++ others) -> selected h sel a -> selected h' sel a.
Proof.
  intros U S. destruct sel as [p|], a as [a|]; try exact S. unfold selected, loose in *.
  rewrite (U p); [exact S|]. left. reflexivity.
Qed.
Lemma act_step fuel o s c c0 sel apps h l : holds h l apps (ptr sel ++ others) ->
  selected h sel (option_map fst (k_app c)) -> k_aids c0 = k_aids c ->
  in_step (fun v w => rel_ctx others h v w /\ k_aids c0 = k_aids (snd (fst v)))
    (act x junk fuel o s c apps) (act_h x junk fuel o s c0 sel h l).
Proof.
  intros H S K. destruct o as [|i| |]; cbn [act act_h].
  - assert (Eb : build_candidate_list_h x junk fuel s c0 h l = build_candidate_list_h x junk fuel s c h l).
    { unfold build_candidate_list_h. now rewrite K. }
    rewrite Eb. eapply step_bind; [apply (build_step x junk (ptr sel ++ others) fuel s c apps h l H)|].
    intros [[r apps1] s1] [[[r' h1] l1] s2] (-> & -> & H1 & U1). apply step_ret. split; [|exact K].
    repeat (split; [reflexivity || assumption|]). split; [eapply selected_untouched; eassumption|].
    eapply untouched_ptr; eassumption.
  - pose proof (select_step x junk others s c sel apps h l i H S) as Hs.
    assert (Ka : forall r apps1 c1 s1, select_application x junk s c apps i = Ret (r, apps1, c1, s1) -> k_aids c1 = k_aids c).
    { clear. intros r apps1 c1 s1. unfold select_application. destruct (remove_nth i apps) as [[cur rest]|]; [|intros E; inversion E; reflexivity].
      destruct (16 <? f_len (a_aid cur)); [intros E; inversion E; reflexivity|].
      destruct (sub (f_val (a_aid cur)) 0 (Z.to_nat (f_len (a_aid cur)))) as [aid| |]; cbn [bind]; try discriminate.
      destruct (select_app x junk s aid) as [[[r0 sel0] s0]| |]; cbn [bind]; try discriminate.
      destruct (r0 =? 0); [intros E; inversion E; reflexivity|].
      destruct (r0 <? 0); intros E; inversion E; reflexivity. }
    unfold in_step in *. destruct (select_application x junk s c apps i) as [[[[r apps1] c1] s1]| |]; [|exact Hs|exact Hs].
    destruct Hs as (w & E & Hw). exists w. split; [exact E|]. split; [exact Hw|]. cbn [fst snd].
    rewrite (Ka _ _ _ _ eq_refl). exact K.
  - unfold ctx_reset, ctx_reset_h. destruct (unselect others _ _ _ _ _ H S) as (h0 & E0 & H0 & U0).
    assert (Er : (match sel with Some p => let* (_, h1) := app_free h p in Ret (None, h1) | None => Ret (None, h) end) = Ret (@None nat, h0)).
    { destruct sel as [p|]; [rewrite E0; reflexivity|injection E0 as <-; reflexivity]. }
    rewrite Er. cbn [bind]. apply step_ret. split; [|exact K]. repeat (split; [reflexivity || assumption|]). exact U0.
  - destruct (holds_clear _ _ _ _ H) as (h1 & E1 & H1 & U1). rewrite E1. cbn [bind]. apply step_ret. split; [|exact K].
    repeat (split; [reflexivity || assumption|]). split; [eapply selected_untouched; eassumption|].
    eapply untouched_ptr; eassumption.
Qed.

Definition rel_hist (h0 : aheap) (v : list Z * list emvapp * ctx * T) (w : list Z * option nat * aheap * alist * T) : Prop :=
  let '(rs, apps, c, s) := v in let '(rs', p, h, l, s') := w in
  rs' = rs /\ s' = s /\ holds h l apps (ptr p ++ others) /\ selected h p (option_map fst (k_app c)) /\ untouched h0 h others.
Lemma history_step fuel c0 : forall os s c sel apps h l, holds h l apps (ptr sel ++ others) ->
  selected h sel (option_map fst (k_app c)) -> k_aids c0 = k_aids c ->
  in_step (rel_hist h) (history x junk fuel os s c apps) (history_h x junk fuel os s c0 sel h l).
Proof.
  induction os as [|o os IH]; intros s c sel apps h l H S K; cbn [history history_h].
  - apply step_ret. repeat (split; [reflexivity || assumption|]). apply untouched_refl.
  - eapply step_bind; [apply (act_step fuel o s c c0 sel apps h l H S K)|].
    intros [[[r apps1] c1] s1] [[[[r' sel1] h1] l1] s2] ((-> & -> & H1 & S1 & U1) & K1). cbn [fst snd] in K1.
    eapply step_bind; [apply (IH s1 c1 sel1 apps1 h1 l1 H1 S1 K1)|].
    intros [[[rs apps2] c2] s3] [[[[rs' sel2] h2] l2] s4] (-> & -> & H2 & S2 & U2). apply step_ret.
    repeat (split; [reflexivity || assumption|]). eapply untouched_trans; eassumption.
Qed.
End History.
