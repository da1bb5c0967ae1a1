(** Lemmas for src/emv_app.c. *)
From Verif Require Import Base BaseLemmas BerModel BerSpec BerProofs TlvListModel TlvListProofs TlvModel TlvSpec
  TlvProofs DolModel DolProofs Iso8859Model Iso8859Spec Iso8859Proofs AppModel AppSpec.

(** ** Heap access *)
Lemma aload_nth h a n : aload h a = Ret n <-> nth_error h a = Some (Some n).
Proof. unfold aload. destruct (nth_error h a) as [[m|]|]; split; intros E; inversion E; auto. Qed.
Lemma anth_lt {A} (h : list A) a n : nth_error h a = Some n -> (a < length h)%nat.
Proof. intro E. apply nth_error_Some. congruence. Qed.
Lemma set_next_spec h a ap nx q : nth_error h a = Some (Some (mkAN ap nx)) ->
  exists h', set_next h a q = Ret h' /\ nth_error h' a = Some (Some (mkAN ap q)) /\ length h' = length h /\
    forall x, x <> a -> nth_error h' x = nth_error h x.
Proof.
  intro E. unfold set_next, astore. pose proof (proj2 (aload_nth _ _ _) E) as El. rewrite !El. cbn [bind an_app].
  pose proof (anth_lt _ _ _ E) as L.
  eexists. split; [reflexivity|]. split; [|split; [apply upd_length|]].
  - rewrite nth_error_upd, Nat.eqb_refl. destruct (Nat.ltb_spec a (length h)); [reflexivity|lia].
  - intros x Hx. rewrite nth_error_upd. destruct (Nat.eqb_spec a x); congruence.
Qed.

(** ** Chains *)
Lemma chain_frame h h' p cs : chain h p cs ->
  (forall a, In a (map fst cs) -> nth_error h' a = nth_error h a) -> chain h' p cs.
Proof.
  induction 1 as [|a ap nx cs E S IH]; intros F; [constructor|]. econstructor.
  - rewrite F; [exact E|left; reflexivity].
  - apply IH. intros; apply F; right; auto.
Qed.
Lemma chain_live h p cs a ap : chain h p cs -> In (a, ap) cs -> exists nx, nth_error h a = Some (Some (mkAN ap nx)).
Proof.
  induction 1 as [|a' ap' nx cs E S IH]; intros Hin; [destruct Hin|].
  destruct Hin as [Hin|Hin]; [inversion Hin; subst; eauto|auto].
Qed.
Lemma chain_length h p cs : chain h p cs -> NoDup (map fst cs) -> (length cs <= length h)%nat.
Proof.
  intros C ND. rewrite <- (map_length fst cs), <- (seq_length (length h) 0). apply NoDup_incl_length; auto.
  intros a Ha. apply in_map_iff in Ha. destruct Ha as ([a' ap] & <- & Hin). cbn [fst].
  destruct (chain_live _ _ _ _ _ C Hin) as (nx & E). apply anth_lt in E. apply in_seq. lia.
Qed.
Lemma last_addr_snoc cs c : last_addr (cs ++ [c]) = Some (fst c).
Proof.
  induction cs as [|[a ap] cs IH]; cbn [app last_addr]; [destruct c; reflexivity|].
  destruct cs as [|d cs]; [exact IH|]. exact IH.
Qed.
Lemma last_addr_app cs d r : last_addr (cs ++ d :: r) = last_addr (d :: r).
Proof.
  induction cs as [|[a ap] cs IH]; [reflexivity|]. cbn [app]. destruct cs; exact IH.
Qed.
Lemma last_addr_none cs : last_addr cs = None -> cs = [].
Proof.
  induction cs as [|[a ap] cs IH]; auto. destruct cs; [discriminate|]. intro H. cbn [last_addr] in *.
  apply IH in H. discriminate.
Qed.
Lemma arep_valid h l cs : arep h l cs -> alist_valid l = true.
Proof.
  intros (C & B & _). unfold alist_valid. inversion C; subst.
  - rewrite B; reflexivity.
  - destruct (al_back l) eqn:E; auto. symmetry in B. apply last_addr_none in B. discriminate.
Qed.
Lemma arep_init h : arep h alist_init [].
Proof. split; [constructor|split; [reflexivity|constructor]]. Qed.
Lemma arep_frame h h' l cs : arep h l cs ->
  (forall a, In a (map fst cs) -> nth_error h' a = nth_error h a) -> arep h' l cs.
Proof. intros (C & B & N) F. split; [eapply chain_frame; eauto|auto]. Qed.

(** Splitting a chain. *)
Lemma chain_app_inv h p pre c post : chain h p (pre ++ c :: post) ->
  exists nx, nth_error h (fst c) = Some (Some (mkAN (snd c) nx)) /\ chain h nx post.
Proof.
  revert p; induction pre as [|d pre IH]; intros p C; inversion C; subst; cbn [fst snd]; eauto.
Qed.
(** Redirecting the [next] pointer of one node of a chain. *)
Lemma chain_link h h' p pre c post q new :
  chain h p (pre ++ c :: post) -> ~ In (fst c) (map fst pre) ->
  (forall a, In a (map fst pre) -> nth_error h' a = nth_error h a) ->
  nth_error h' (fst c) = Some (Some (mkAN (snd c) q)) -> chain h' q new ->
  chain h' p (pre ++ c :: new).
Proof.
  revert p; induction pre as [|d pre IH]; intros p C Hc F E N; inversion C; subst; cbn [app].
  - cbn [fst snd] in *. econstructor; eauto.
  - econstructor.
    + rewrite F; [eassumption|left; reflexivity].
    + apply IH; auto; intros; [intro; apply Hc; right; auto|apply F; right; auto].
Qed.
Lemma chain_head h p c cs : chain h p (c :: cs) -> p = Some (fst c).
Proof. intro C. inversion C; reflexivity. Qed.
Lemma chain_nil_head h p : chain h p [] -> p = None.
Proof. intro C. inversion C; reflexivity. Qed.

Lemma nodup_mid (pre : list cell) c post : NoDup (map fst (pre ++ c :: post)) ->
  ~ In (fst c) (map fst pre) /\ ~ In (fst c) (map fst post) /\ NoDup (map fst (pre ++ post)).
Proof.
  rewrite map_app. cbn [map]. intro N. pose proof (NoDup_remove_1 _ _ _ N) as N1.
  apply NoDup_remove_2 in N. rewrite map_app. repeat split; auto; intro H; apply N, in_or_app; auto.
Qed.
Lemma nodup_disj (pre post : list cell) : NoDup (map fst (pre ++ post)) ->
  forall a, In a (map fst pre) -> ~ In a (map fst post).
Proof.
  rewrite map_app. induction (map fst pre) as [|b l IH]; cbn [app]; intros N a Ha; [destruct Ha|].
  inversion N; subst. destruct Ha as [->|Ha].
  - intro H. match goal with X : ~ In _ _ |- _ => apply X end. apply in_or_app; auto.
  - apply IH; auto.
Qed.

(** ** Operations *)
Lemma apop_spec h l c cs : arep h l (c :: cs) ->
  exists h' l', alist_pop h l = Ret (Some (fst c), h', l') /\ arep h' l' cs /\
    loose h' (fst c) (snd c) /\ frame h h' [fst c] /\ length h' = length h.
Proof.
  intro R. pose proof (arep_valid _ _ _ R) as V. unfold alist_pop. rewrite V. cbn [negb].
  destruct R as (C & B & N). destruct c as [a ap]. inversion C as [|a' ap' nx cs' E S Ef]; subst. cbn [fst snd].
  rewrite (proj2 (aload_nth _ _ _) E). cbn [bind an_next].
  destruct (set_next_spec h a ap nx None E) as (h' & Es & Ea & Lh & F). rewrite Es. cbn [bind].
  do 2 eexists. split; [reflexivity|]. cbn [map fst] in N. inversion N as [|? ? Na Ncs]; subst.
  split; [|split; [exact Ea|split; [|exact Lh]]].
  - split; [|split; auto]; cbn [al_front al_back].
    + eapply chain_frame; [exact S|]. intros x Hx. apply F. intros ->. contradiction.
    + inversion S; subst; [reflexivity|exact B].
  - intros x Hx. apply F. intros ->. apply Hx. left; reflexivity.
Qed.
Lemma apop_empty h l : arep h l [] -> alist_pop h l = Ret (None, h, l).
Proof.
  intro R. pose proof (arep_valid _ _ _ R) as V. unfold alist_pop. rewrite V. cbn [negb].
  destruct R as (C & _). inversion C; reflexivity.
Qed.
Lemma cells_last (cs : list cell) : cs = [] \/ exists cs0 c, cs = cs0 ++ [c].
Proof.
  destruct cs as [|x cs]; auto. right. destruct (exists_last (l := x :: cs)) as (l0 & b & E); [congruence|]. eauto.
Qed.
Lemma arep_back h l cs c : arep h l (cs ++ [c]) -> al_back l = Some (fst c).
Proof. intros (_ & B & _). now rewrite last_addr_snoc in B. Qed.
Lemma nodup_snoc (cs : list cell) a ap : NoDup (map fst cs) -> ~ In a (map fst cs) -> NoDup (map fst (cs ++ [(a, ap)])).
Proof.
  intros N H. rewrite map_app. cbn [map fst]. apply NoDup_app_intro; auto.
  - constructor; [intros []|constructor].
  - intros x Hx [<-|[]]. contradiction.
Qed.
(** The pushed node may have any [next] pointer; it is overwritten. *)
Lemma apush_spec h l cs a ap nx : arep h l cs -> nth_error h a = Some (Some (mkAN ap nx)) -> ~ In a (map fst cs) ->
  exists h' l', alist_push h l a = Ret (0, h', l') /\ arep h' l' (cs ++ [(a, ap)]) /\
    frame h h' (a :: map fst cs) /\ length h' = length h.
Proof.
  intros R E Na. pose proof (arep_valid _ _ _ R) as V. unfold alist_push. rewrite V. cbn [negb].
  destruct (cells_last cs) as [->|(cs0 & [b bp] & ->)].
  - destruct R as (C & B & N). change (last_addr []) with (@None nat) in B. rewrite B. cbn [bind].
    destruct (set_next_spec h a ap nx None E) as (h' & Es & Ea & Lh & F). rewrite Es. cbn [bind].
    do 2 eexists. split; [reflexivity|]. split; [|split; auto].
    + split; [|split; [reflexivity|]]; cbn [al_front al_back app].
      * econstructor; [exact Ea|constructor].
      * cbn. constructor; [intros []|constructor].
    + intros x Hx. apply F. intros ->. apply Hx; left; reflexivity.
  - rewrite (arep_back _ _ _ _ R). cbn [fst]. destruct R as (C & B & N).
    destruct (chain_app_inv _ _ _ _ _ C) as (nb & Eb & Cb). cbn [fst snd] in Eb. apply chain_nil_head in Cb. subst nb.
    destruct (set_next_spec h b bp None (Some a) Eb) as (h1 & E1 & Eb1 & L1 & F1). rewrite E1. cbn [bind].
    assert (Hba : a <> b) by (intros ->; apply Na; rewrite map_app; apply in_or_app; right; left; reflexivity).
    assert (Ea1 : nth_error h1 a = Some (Some (mkAN ap nx))) by (rewrite F1; auto).
    destruct (set_next_spec h1 a ap nx None Ea1) as (h2 & E2 & Ea2 & L2 & F2). rewrite E2. cbn [bind].
    do 2 eexists. split; [reflexivity|]. destruct (nodup_mid _ _ _ N) as (Nb & _ & _). cbn [fst] in Nb.
    split; [|split; [|congruence]].
    + split; [|split]; cbn [al_front al_back].
      * rewrite <- app_assoc. cbn [app]. eapply (chain_link h h2); [exact C|exact Nb| |cbn [fst snd]|].
        -- intros x Hx. rewrite F2, F1; auto; intros ->; [contradiction|]. apply Na. rewrite map_app. apply in_or_app; auto.
        -- rewrite F2; [exact Eb1|auto].
        -- econstructor; [exact Ea2|constructor].
      * now rewrite last_addr_snoc.
      * apply nodup_snoc; auto.
    + intros x Hx. rewrite F2, F1; auto; intros ->; apply Hx; [right|left; reflexivity].
      rewrite map_app. apply in_or_app; right; left; reflexivity.
Qed.

Lemma remove_loop_spec h l cs : arep h l cs -> forall pre post prev cur index fuel,
  cs = pre ++ post -> chain h cur post -> prev = last_addr pre -> (length post < fuel)%nat ->
  (length post <= index)%nat /\ remove_loop fuel h l prev cur index = Ret (None, h, l) \/
  exists p1 c p2 h' l', post = p1 ++ c :: p2 /\ length p1 = index /\
    remove_loop fuel h l prev cur index = Ret (Some (fst c), h', l') /\
    arep h' l' (pre ++ p1 ++ p2) /\ loose h' (fst c) (snd c) /\ frame h h' (map fst cs) /\ length h' = length h.
Proof.
  intro R. intros pre post; revert pre; induction post as [|c post IH]; intros pre prev cur index fuel E C P L;
    (destruct fuel as [|fuel]; [cbn [length] in L; lia|]); cbn [remove_loop].
  - apply chain_nil_head in C. subst cur. left. split; [cbn [length]; lia|reflexivity].
  - pose proof (chain_head _ _ _ _ C) as Hc. subst cur. destruct c as [a ap]. cbn [fst].
    inversion C as [|a' ap' nx cs' Ea Cp Ef]; subst a' ap' cs'.
    destruct index as [|index].
    + right. exists [], (a, ap), post. cbn [app fst snd].
      destruct (cells_last pre) as [->|(pre0 & [b bp] & ->)].
      * cbn [last_addr] in P. subst prev. cbn [app] in *. subst cs.
        destruct (apop_spec _ _ _ _ R) as (h' & l' & Ep & R' & Lo & F & Lh).
        exists h', l'. cbn [fst snd] in *. repeat (split; auto).
        intros x Hx. apply F. intros [<-|[]]. apply Hx. left; reflexivity.
      * rewrite last_addr_snoc in P. subst prev. cbn [fst].
        rewrite (proj2 (aload_nth _ _ _) Ea). cbn [bind an_next].
        destruct R as (C0 & B & N). subst cs. rewrite <- app_assoc in C0, N. cbn [app] in C0, N.
        destruct (chain_app_inv _ _ _ _ _ C0) as (nb & Eb & Cb). cbn [fst snd] in Eb.
        destruct (nodup_mid _ _ _ N) as (Nb1 & Nb2 & _). cbn [fst] in *. cbn [map fst] in Nb2.
        destruct (set_next_spec h b bp nb nx Eb) as (h1 & E1 & Eb1 & L1 & F1). rewrite E1. cbn [bind].
        assert (Hab : a <> b) by (intros ->; apply Nb2; left; reflexivity).
        assert (Ea1 : nth_error h1 a = Some (Some (mkAN ap nx))) by (rewrite F1; auto).
        destruct (set_next_spec h1 a ap nx None Ea1) as (h2 & E2 & Ea2 & L2 & F2). rewrite E2. cbn [bind].
        change (pre0 ++ (b, bp) :: (a, ap) :: post) with (pre0 ++ [(b, bp)] ++ (a, ap) :: post) in N.
        rewrite app_assoc in N. destruct (nodup_mid _ _ _ N) as (Na1 & Na2 & Nn). cbn [fst] in *.
        rewrite map_app in Na1. cbn [map fst] in Na1.
        do 2 eexists. split; [reflexivity|]. split; [reflexivity|]. split; [reflexivity|].
        split; [|split; [exact Ea2|split; [|congruence]]].
        -- split; [|split; [|exact Nn]].
           ++ rewrite <- app_assoc. cbn [app].
              replace (al_front _) with (al_front l) by (destruct nx; reflexivity).
              eapply (chain_link h h2); [exact C0|exact Nb1| |cbn [fst snd]|].
              ** intros x Hx. rewrite F2, F1; auto; intros ->; [contradiction|].
                 apply Na1, in_or_app; auto.
              ** rewrite F2; [exact Eb1|auto].
              ** eapply chain_frame; [exact Cp|]. intros x Hx. rewrite F2, F1; auto; intros ->; [|contradiction].
                 apply Nb2. right; auto.
           ++ inversion Cp; subst.
              ** cbn [al_back]. rewrite app_nil_r, last_addr_snoc. reflexivity.
              ** rewrite last_addr_app. rewrite last_addr_app in B. exact B.
        -- intros x Hx. rewrite F2, F1; auto; intros ->; apply Hx; rewrite !map_app; cbn [map fst].
           ++ apply in_or_app; left. apply in_or_app; right; left; reflexivity.
           ++ apply in_or_app; right. left; reflexivity.
    + rewrite (proj2 (aload_nth _ _ _) Ea). cbn [bind an_next].
      destruct (IH (pre ++ [(a, ap)]) (Some a) nx index fuel) as [(Hi & Er)|(p1 & c & p2 & h' & l' & -> & Hl & Er & R' & Lo & F & Lh)].
      * rewrite <- app_assoc. exact E.
      * exact Cp.
      * now rewrite last_addr_snoc.
      * cbn [length] in L. lia.
      * left. split; [cbn [length]; lia|exact Er].
      * right. exists ((a, ap) :: p1), c, p2, h', l'. cbn [app length].
        rewrite <- app_assoc in R'. cbn [app] in R'.
        repeat (split; auto).
Qed.

Lemma remove_spec h l cs index fuel : arep h l cs -> (length cs < fuel)%nat ->
  (length cs <= index)%nat /\ alist_remove_index fuel h l index = Ret (None, h, l) \/
  exists p1 c p2 h' l', cs = p1 ++ c :: p2 /\ length p1 = index /\
    alist_remove_index fuel h l index = Ret (Some (fst c), h', l') /\
    arep h' l' (p1 ++ p2) /\ loose h' (fst c) (snd c) /\ frame h h' (map fst cs) /\ length h' = length h.
Proof.
  intros R L. unfold alist_remove_index. rewrite (arep_valid _ _ _ R). cbn [negb].
  pose proof R as (C & _ & _).
  exact (remove_loop_spec h l cs R [] cs None (al_front l) index fuel eq_refl C eq_refl L).
Qed.

(** ** Sorting *)
Fixpoint ins (c : cell) (cs : list cell) : list cell :=
  match cs with
  | [] => [c]
  | d :: r => if prio d =? 0 then c :: d :: r
              else if (negb (prio c =? 0) && (prio c <? prio d))%bool then c :: d :: r else d :: ins c r
  end.

Lemma find_pos_spec h c : forall cs cur pos fuel, chain h cur cs -> (length cs < fuel)%nat ->
  exists p1 p2, cs = p1 ++ p2 /\ ins c cs = p1 ++ c :: p2 /\
    find_pos fuel h (prio c) cur pos = Ret (match p1 with [] => pos | _ => last_addr p1 end).
Proof.
  induction cs as [|[d dp] cs IH]; intros cur pos fuel C L; (destruct fuel as [|fuel]; [cbn [length] in L; lia|]); cbn [find_pos ins].
  - apply chain_nil_head in C. subst cur. exists [], []. auto.
  - inversion C as [|a' ap' nx cs' Ea Cp Ef]; subst. rewrite (proj2 (aload_nth _ _ _) Ea). cbn [bind an_app an_next].
    change (prio (d, dp)) with (a_prio dp).
    destruct (a_prio dp =? 0) eqn:E0; [exists [], ((d, dp) :: cs); auto|].
    destruct (negb (prio c =? 0) && (prio c <? a_prio dp))%bool eqn:E1; [exists [], ((d, dp) :: cs); auto|].
    destruct (IH nx (Some d) fuel Cp) as (p1 & p2 & -> & Ei & Ef); [cbn [length] in L; lia|].
    exists ((d, dp) :: p1), p2. split; [reflexivity|]. split; [rewrite Ei; reflexivity|]. rewrite Ef.
    destruct p1 as [|e p1]; [reflexivity|]. reflexivity.
Qed.

Lemma ainsert_spec h l p1 p2 c : arep h l (p1 ++ p2) -> loose h (fst c) (snd c) -> ~ In (fst c) (map fst (p1 ++ p2)) ->
  exists h' l', (match (match p1 with [] => None | _ => last_addr p1 end) with
      | Some p => alist_insert h l p (fst c) | None => alist_push_front h l (fst c) end) = Ret (0, h', l') /\
    arep h' l' (p1 ++ c :: p2) /\ frame h h' (fst c :: map fst (p1 ++ p2)) /\ length h' = length h.
Proof.
  intros R E Na. pose proof (arep_valid _ _ _ R) as V. destruct c as [a ap]. cbn [fst snd] in *. unfold loose in E.
  destruct (cells_last p1) as [->|(p0 & [b bp] & ->)].
  - unfold alist_push_front. rewrite V. cbn [negb app] in *. destruct R as (C & B & N). destruct p2 as [|[d dp] p2].
    + apply chain_nil_head in C. rewrite C. do 2 eexists. split; [reflexivity|]. split; [|split; [intros x _; reflexivity|reflexivity]].
      split; [|split; [reflexivity|]]; cbn [al_front].
      * econstructor; [exact E|constructor].
      * cbn. constructor; [intros []|constructor].
    + pose proof (chain_head _ _ _ _ C) as Hf. rewrite Hf. cbn [fst].
      destruct (set_next_spec h a ap None (Some d) E) as (h' & Es & Ea & Lh & F). rewrite Es. cbn [bind].
      do 2 eexists. split; [reflexivity|]. split; [|split; [|exact Lh]].
      * split; [|split]; cbn [al_front al_back].
        -- econstructor; [exact Ea|]. cbn [fst] in Hf. rewrite <- Hf. eapply chain_frame; [exact C|].
           intros x Hx. apply F. intros ->. contradiction.
        -- rewrite B. reflexivity.
        -- cbn [map fst]. constructor; auto.
      * intros x Hx. apply F. intros ->. apply Hx; left; reflexivity.
  - replace (match p0 ++ [(b, bp)] with [] => None | _ => last_addr (p0 ++ [(b, bp)]) end) with (Some b)
      by (rewrite last_addr_snoc; destruct p0; reflexivity).
    unfold alist_insert. rewrite V. cbn [negb]. destruct p2 as [|[d dp] p2].
    + rewrite app_nil_r in R, Na. rewrite (arep_back _ _ _ _ R). cbn [fst]. rewrite Nat.eqb_refl.
      destruct (apush_spec h l _ a ap None R E Na) as (h' & l' & Ep & R' & F & Lh).
      exists h', l'. rewrite app_nil_r. auto.
    + pose proof R as (C & B & N). rewrite last_addr_app in B.
      rewrite <- app_assoc in C, N. cbn [app] in C, N.
      destruct (chain_app_inv _ _ _ _ _ C) as (nb & Eb & Cb). cbn [fst snd] in Eb.
      destruct (nodup_mid _ _ _ N) as (Nb1 & Nb2 & _). cbn [fst] in *.
      assert (Hbk : match al_back l with Some b0 => Nat.eqb b0 b | None => false end = false).
      { rewrite B. destruct (cells_last ((d, dp) :: p2)) as [Q|(q0 & [e ep] & Q)]; [discriminate|].
        rewrite Q, last_addr_snoc. cbn [fst]. apply Nat.eqb_neq. intros ->. apply Nb2. rewrite Q, map_app.
        apply in_or_app; right; left; reflexivity. }
      rewrite Hbk. rewrite (proj2 (aload_nth _ _ _) Eb). cbn [bind an_next].
      pose proof (chain_head _ _ _ _ Cb) as Hn. cbn [fst] in Hn. subst nb.
      destruct (set_next_spec h a ap None (Some d) E) as (h1 & E1 & Ea1 & L1 & F1). rewrite E1. cbn [bind].
      rewrite !map_app in Na. cbn [map fst] in Na.
      assert (Hab : b <> a). { intros ->. apply Na, in_or_app; left. apply in_or_app; right; left; reflexivity. }
      assert (Eb1 : nth_error h1 b = Some (Some (mkAN bp (Some d)))) by (rewrite F1; auto).
      destruct (set_next_spec h1 b bp (Some d) (Some a) Eb1) as (h2 & E2 & Eb2 & L2 & F2). rewrite E2. cbn [bind].
      do 2 eexists. split; [reflexivity|]. split; [|split; [|congruence]].
      * split; [|split].
        -- rewrite <- app_assoc. cbn [app]. eapply (chain_link h h2); [exact C|exact Nb1| |cbn [fst snd]; exact Eb2|].
           ++ intros x Hx. rewrite F2, F1; auto; intros ->; [|contradiction]. apply Na, in_or_app; left. apply in_or_app; auto.
           ++ econstructor; [rewrite F2; [exact Ea1|auto]|]. eapply chain_frame; [exact Cb|].
              intros x Hx. rewrite F2, F1; auto; intros ->; [|contradiction]. apply Na, in_or_app; right; auto.
        -- rewrite last_addr_app. exact B.
        -- destruct R as (_ & _ & N2). rewrite map_app. cbn [map fst].
           apply NoDup_Add with (a := a) (l := map fst (p0 ++ [(b, bp)]) ++ map fst ((d, dp) :: p2)).
           ++ apply Add_app.
           ++ split; [rewrite <- map_app; exact N2|]. rewrite map_app. cbn [map fst]. exact Na.
      * intros x Hx. rewrite F2, F1; auto; intros ->; apply Hx; [left; reflexivity|right].
        rewrite !map_app. apply in_or_app; left. apply in_or_app; right; left; reflexivity.
Qed.

Lemma sort_loop_spec : forall cs h l sorted done fuel, arep h l cs -> arep h sorted done ->
  NoDup (map fst (cs ++ done)) -> (length cs < fuel)%nat ->
  exists h' l', sort_loop fuel h l sorted = Ret (0, h', l') /\
    arep h' l' (fold_left (fun d c => ins c d) cs done) /\
    frame h h' (map fst (cs ++ done)) /\ length h' = length h.
Proof.
  induction cs as [|c cs IH]; intros h l sorted done fuel R D N L; (destruct fuel as [|fuel]; [cbn [length] in L; lia|]); cbn [sort_loop].
  - rewrite (apop_empty _ _ R). cbn [bind fold_left]. do 2 eexists. split; [reflexivity|]. split; [exact D|split; [intros x _; reflexivity|reflexivity]].
  - destruct (apop_spec _ _ _ _ R) as (h1 & l1 & Ep & R1 & Lo & F1 & L1). rewrite Ep. cbn [bind].
    rewrite (proj2 (aload_nth _ _ _) Lo). cbn [bind an_app].
    cbn [app map] in N. inversion N as [|? ? Nc N']; subst.
    rewrite map_app in Nc.
    assert (D1 : arep h1 sorted done).
    { eapply arep_frame; [exact D|]. intros a Ha. apply F1. intros [<-|[]]. apply Nc, in_or_app; auto. }
    pose proof D1 as (Cd & _ & Nd).
    destruct (find_pos_spec h1 c done (al_front sorted) None (S (length h1)) Cd) as (p1 & p2 & Ed & Ei & Ef).
    { pose proof (chain_length _ _ _ Cd Nd). lia. }
    change (a_prio (snd c)) with (prio c). rewrite Ef. cbn [bind]. subst done.
    destruct (ainsert_spec h1 sorted p1 p2 c D1 Lo) as (h2 & l2 & Ea & R2 & F2 & L2).
    { intro H. apply Nc, in_or_app; auto. }
    rewrite Ea. cbn [bind Z.eqb negb].
    assert (R1' : arep h2 l1 cs).
    { eapply arep_frame; [exact R1|]. intros a Ha. apply F2. intros [<-|Hin].
      - apply Nc, in_or_app; auto.
      - eapply nodup_disj; [exact N'|exact Ha|exact Hin]. }
    destruct (IH h2 l1 l2 (ins c (p1 ++ p2)) fuel) as (h3 & l3 & Es & R3 & F3 & L3).
    { exact R1'. } { rewrite Ei. exact R2. }
    { rewrite Ei. rewrite <- !map_app in Nc. rewrite !map_app in *. cbn [map].
      rewrite app_assoc. apply NoDup_Add with (a := fst c) (l := (map fst cs ++ map fst p1) ++ map fst p2).
      - apply Add_app.
      - rewrite <- app_assoc. auto. }
    { cbn [length] in L. lia. }
    exists h3, l3. split; [exact Es|]. split; [exact R3|]. split; [|congruence].
    intros x Hx. cbn [app map] in Hx. rewrite F3, F2, F1.
    + reflexivity.
    + intros [<-|[]]. apply Hx; left; reflexivity.
    + intros [<-|H]; apply Hx; [left; reflexivity|right]. rewrite map_app. apply in_or_app; right; exact H.
    + rewrite Ei. rewrite !map_app. cbn [map]. intro H. apply Hx. rewrite map_app.
      apply in_app_or in H. destruct H as [H|H]; [right; apply in_or_app; auto|].
      apply in_app_or in H. rewrite map_app. destruct H as [H|[H|H]].
      * right. apply in_or_app; right. apply in_or_app; auto.
      * left; exact H.
      * right. apply in_or_app; right. apply in_or_app; auto.
Qed.

(** What [ins] does to the sequence. *)
Lemma ins_perm c cs : Permutation (ins c cs) (c :: cs).
Proof.
  induction cs as [|d cs IH]; cbn [ins]; [auto|].
  destruct (prio d =? 0); [auto|]. destruct (negb (prio c =? 0) && (prio c <? prio d))%bool; [auto|].
  rewrite IH. apply perm_swap.
Qed.
Lemma before_trans c d e : before c d -> before d e -> before c e.
Proof. unfold before. lia. Qed.
Lemma ins_sorted c cs : StronglySorted before cs -> StronglySorted before (ins c cs).
Proof.
  induction 1 as [|d cs S IH F]; cbn [ins].
  - constructor; [constructor|constructor].
  - destruct (Z.eqb_spec (prio d) 0) as [E0|E0].
    { constructor; [now constructor|]. assert (before c d) by (left; auto). constructor; auto.
      eapply Forall_impl; [|exact F]. intros e He. eapply before_trans; eauto. }
    destruct (negb (prio c =? 0) && (prio c <? prio d))%bool eqn:E1.
    { apply andb_true_iff in E1. destruct E1 as (E1 & E2). apply negb_true_iff in E1.
      apply Z.eqb_neq in E1. apply Z.ltb_lt in E2.
      constructor; [now constructor|]. assert (before c d) by (right; lia). constructor; auto.
      eapply Forall_impl; [|exact F]. intros e He. eapply before_trans; eauto. }
    constructor; [exact IH|]. rewrite ins_perm. constructor; auto.
    apply andb_false_iff in E1. unfold before. destruct E1 as [E1|E1].
    + left. apply negb_false_iff in E1. now apply Z.eqb_eq in E1.
    + apply Z.ltb_ge in E1. lia.
Qed.
Lemma with_prio_cons p d cs : with_prio p (d :: cs) = if prio d =? p then d :: with_prio p cs else with_prio p cs.
Proof. reflexivity. Qed.
Lemma ins_with c cs p : StronglySorted before cs ->
  with_prio p (ins c cs) = if prio c =? p then (if p =? 0 then c :: with_prio p cs else with_prio p cs ++ [c]) else with_prio p cs.
Proof.
  assert (None_ : forall q l, Forall (fun e => prio e <> q) l -> with_prio q l = []).
  { intros q l. induction 1 as [|e l He _ IH]; [reflexivity|]. unfold with_prio in *. cbn [filter].
    apply Z.eqb_neq in He. now rewrite He. }
  induction 1 as [|d cs S IH F]; cbn [ins].
  - unfold with_prio. cbn [filter]. destruct (prio c =? p); [destruct (p =? 0)|]; reflexivity.
  - destruct (Z.eqb_spec (prio d) 0) as [E0|E0].
    { unfold with_prio at 1. cbn [filter]. fold (with_prio p cs). destruct (Z.eqb_spec (prio c) p) as [Ec|Ec]; [|reflexivity].
      destruct (Z.eqb_spec p 0) as [Ep|Ep]; [reflexivity|].
      assert (Fz : Forall (fun e => prio e <> p) (d :: cs)).
      { constructor; [lia|]. eapply Forall_impl; [|exact F]. intros e [He|He]; lia. }
      pose proof (None_ _ _ Fz) as Q. unfold with_prio in *. cbn [filter] in Q. rewrite Q.
      cbn [filter]. rewrite Q. reflexivity. }
    destruct (negb (prio c =? 0) && (prio c <? prio d))%bool eqn:E1.
    { apply andb_true_iff in E1. destruct E1 as (E1 & E2). apply negb_true_iff in E1.
      apply Z.eqb_neq in E1. apply Z.ltb_lt in E2.
      unfold with_prio at 1. cbn [filter]. fold (with_prio p cs). destruct (Z.eqb_spec (prio c) p) as [Ec|Ec]; [|reflexivity].
      destruct (Z.eqb_spec p 0) as [Ep|Ep]; [lia|].
      assert (Fz : Forall (fun e => prio e <> p) (d :: cs)).
      { constructor; [lia|]. eapply Forall_impl; [|exact F]. intros e [He|He]; lia. }
      pose proof (None_ _ _ Fz) as Q. unfold with_prio in *. cbn [filter] in Q. cbn [filter]. rewrite Q. reflexivity. }
    rewrite !with_prio_cons, IH.
    destruct (Z.eqb_spec (prio c) p) as [Ec|Ec]; [|reflexivity].
    destruct (Z.eqb_spec p 0) as [Ep|Ep].
    + destruct (Z.eqb_spec (prio d) p); [lia|reflexivity].
    + destruct (Z.eqb_spec (prio d) p); reflexivity.
Qed.

Lemma fold_ins cs : forall done, StronglySorted before done ->
  let r := fold_left (fun d c => ins c d) cs done in
  Permutation (cs ++ done) r /\ StronglySorted before r /\
  forall p, with_prio p r = if p =? 0 then rev (with_prio 0 cs) ++ with_prio 0 done else with_prio p done ++ with_prio p cs.
Proof.
  induction cs as [|c cs IH]; intros done S; cbn [fold_left]; cbv zeta.
  - split; [reflexivity|]. split; [exact S|]. intro p. cbn [with_prio filter]. destruct (Z.eqb_spec p 0) as [->|]; [reflexivity|].
    change (with_prio p []) with (@nil cell). now rewrite app_nil_r.
  - destruct (IH (ins c done) (ins_sorted c done S)) as (P & S' & W). split; [|split; [exact S'|]].
    + rewrite <- P. rewrite ins_perm. cbn [app]. apply Permutation_middle.
    + intro p. rewrite W. rewrite !ins_with by exact S. rewrite !with_prio_cons.
      destruct (Z.eqb_spec p 0) as [->|Hp].
      * destruct (prio c =? 0); [|reflexivity]. cbn [rev]. rewrite <- app_assoc. reflexivity.
      * destruct (prio c =? p); [|reflexivity]. rewrite <- app_assoc. reflexivity.
Qed.

Lemma sort_spec h l cs fuel : arep h l cs -> (length cs < fuel)%nat ->
  exists h' l' cs', alist_sort_priority fuel h l = Ret (0, h', l') /\ arep h' l' cs' /\
    frame h h' (map fst cs) /\ Permutation cs cs' /\ StronglySorted before cs' /\
    (forall p, p <> 0 -> with_prio p cs' = with_prio p cs) /\ with_prio 0 cs' = rev (with_prio 0 cs).
Proof.
  intros R L. unfold alist_sort_priority. rewrite (arep_valid _ _ _ R). cbn [negb]. pose proof R as (_ & _ & N).
  destruct (sort_loop_spec cs h l alist_init [] fuel R (arep_init h)) as (h' & l' & E & R' & F & _);
    [rewrite app_nil_r; exact N|exact L|].
  destruct (fold_ins cs [] ltac:(constructor)) as (P & S & W).
  exists h', l', (fold_left (fun d c => ins c d) cs []). rewrite app_nil_r in F, P.
  split; [exact E|]. split; [exact R'|]. split; [exact F|]. split; [exact P|]. split; [exact S|]. split.
  - intros p Hp. rewrite W. apply Z.eqb_neq in Hp. now rewrite Hp.
  - rewrite W. cbn [Z.eqb]. now rewrite app_nil_r.
Qed.

(** ** Clearing and selection *)
Lemma clear_loop_spec : forall cs h l fuel, arep h l cs -> (length cs < fuel)%nat ->
  exists h', clear_loop fuel h l = Ret (h', alist_init) /\
    (forall a, In a (map fst cs) -> nth_error h' a = Some None) /\ frame h h' (map fst cs).
Proof.
  induction cs as [|c cs IH]; intros h l fuel R L; (destruct fuel as [|fuel]; [cbn [length] in L; lia|]); cbn [clear_loop].
  - destruct R as (C & B & _). apply chain_nil_head in C. rewrite C. cbn [last_addr] in B.
    exists h. split; [destruct l; cbn in *; subst; reflexivity|]. split; [intros a []|intros x _; reflexivity].
  - pose proof R as (C & _ & N). rewrite (chain_head _ _ _ _ C).
    destruct (apop_spec _ _ _ _ R) as (h1 & l1 & Ep & R1 & Lo & F1 & L1). rewrite Ep. cbn [bind].
    unfold app_free. rewrite (proj2 (aload_nth _ _ _) Lo). cbn [bind an_next].
    cbn [map] in N. inversion N as [|? ? Nc N']; subst. pose proof (anth_lt _ _ _ Lo) as La.
    set (h2 := upd h1 (fst c) None).
    assert (F2 : forall x, x <> fst c -> nth_error h2 x = nth_error h1 x).
    { intros x Hx. unfold h2. rewrite nth_error_upd. destruct (Nat.eqb_spec (fst c) x); congruence. }
    assert (E2 : nth_error h2 (fst c) = Some None).
    { unfold h2. rewrite nth_error_upd, Nat.eqb_refl. destruct (Nat.ltb_spec (fst c) (length h1)); [reflexivity|lia]. }
    destruct (IH h2 l1 fuel) as (h3 & E3 & D3 & F3).
    + eapply arep_frame; [exact R1|]. intros a Ha. apply F2. intros ->. contradiction.
    + cbn [length] in L. lia.
    + exists h3. split; [exact E3|]. split.
      * cbn [map]. intros a [<-|Ha]; [|auto]. rewrite F3; auto.
      * intros x Hx. cbn [map] in Hx. rewrite F3, F2, F1; auto.
        -- intros [<-|[]]. apply Hx; left; reflexivity.
        -- intros ->. apply Hx; left; reflexivity.
        -- intro H; apply Hx; right; exact H.
Qed.
Lemma clear_spec h l cs fuel : arep h l cs -> (length cs < fuel)%nat ->
  exists h', alist_clear fuel h l = Ret (h', alist_init) /\
    (forall a, In a (map fst cs) -> nth_error h' a = Some None) /\ frame h h' (map fst cs).
Proof. intros R L. unfold alist_clear. rewrite (arep_valid _ _ _ R). cbn [negb]. now apply clear_loop_spec. Qed.

Lemma sel_loop_spec h : forall cs cur count fuel, chain h cur cs -> (length cs < fuel)%nat -> (count <= 1)%nat ->
  exists b, sel_loop fuel h cur count = Ret b /\
    (b = true <-> (2 <= count + length cs /\ cs <> [])%nat \/ exists c, In c cs /\ a_conf (snd c) = true).
Proof.
  induction cs as [|[a ap] cs IH]; intros cur count fuel C L Hc; (destruct fuel as [|fuel]; [cbn [length] in L; lia|]); cbn [sel_loop].
  - apply chain_nil_head in C. subst cur. exists false. split; [reflexivity|]. split; [discriminate|].
    intros [(_ & H)|(c & [] & _)]. congruence.
  - inversion C as [|a' ap' nx cs' Ea Cp Ef]; subst. rewrite (proj2 (aload_nth _ _ _) Ea). cbn [bind an_app an_next].
    destruct (a_conf ap) eqn:Ec.
    { exists true. split; [reflexivity|]. split; [|auto]. intros _. right. exists (a, ap). split; [left; reflexivity|exact Ec]. }
    destruct (Nat.ltb_spec 1 (S count)).
    { exists true. split; [reflexivity|]. split; [|auto]. intros _. left. cbn [length]. split; [lia|discriminate]. }
    destruct (IH nx (S count) fuel Cp) as (b & Es & Hb); [cbn [length] in L; lia|lia|].
    exists b. split; [exact Es|]. rewrite Hb. cbn [length]. assert (count = 0)%nat by lia. subst count. split.
    + intros [(H1 & H2)|(c & Hin & H2)]; [left; split; [lia|discriminate]|right; exists c; split; [right; auto|auto]].
    + intros [(H1 & H2)|(c & [<-|Hin] & H2)].
      * destruct cs; cbn [length] in *; [lia|]. left. split; [lia|discriminate].
      * cbn [snd] in H2. congruence.
      * right; eauto.
Qed.
Lemma sel_required h l cs fuel : arep h l cs -> (length cs < fuel)%nat ->
  exists b, alist_selection_is_required fuel h l = Ret b /\
    (b = true <-> (2 <= length cs)%nat \/ exists c, In c cs /\ a_conf (snd c) = true).
Proof.
  intros R L. unfold alist_selection_is_required. rewrite (arep_valid _ _ _ R). cbn [negb]. destruct R as (C & _).
  destruct (sel_loop_spec h cs (al_front l) 0 fuel C L ltac:(lia)) as (b & E & H). exists b. split; [exact E|].
  rewrite H. split; (intros [Hx|Hx]; [left|right; exact Hx]).
  - lia.
  - split; [lia|]. destruct cs; [cbn in Hx; lia|discriminate].
Qed.

(** ** Matching *)
Lemma wf_sub f : wf_field f -> sub (f_val f) 0 (Z.to_nat (f_len f)) = Ret (f_val f).
Proof.
  intros (L & _ & _). rewrite L. unfold Zlen. rewrite Nat2Z.id, sub_Ret by lia. cbn [skipn]. now rewrite firstn_all.
Qed.
Lemma supported_spec aid l : wf_field aid -> Forall wf_field l ->
  exists b, app_is_supported aid l = Ret b /\ (b = true <-> exists t, In t l /\ aid_matches aid t).
Proof.
  intros Wa. induction 1 as [|t l Wt Wl (b & IH & Hb)]; cbn [app_is_supported].
  - exists false. split; [reflexivity|]. split; [discriminate|]. intros (t & [] & _).
  - assert (M : f_len t <= f_len aid -> exists e, mem_equal (f_val t) (f_val aid) (Z.to_nat (f_len t)) = Ret e /\
      (e = true <-> exists rest, f_val aid = f_val t ++ rest)).
    { intros L. unfold mem_equal. rewrite (wf_sub t Wt). cbn [bind].
      destruct Wa as (La & _), Wt as (Lt & _). rewrite La, Lt in *. unfold Zlen in *.
      rewrite sub_Ret by lia. cbn [bind skipn]. rewrite Nat2Z.id.
      eexists. split; [reflexivity|]. destruct (list_eq_dec Z.eq_dec (f_val t) _) as [E|E].
      - split; [|auto]. intros _. exists (skipn (length (f_val t)) (f_val aid)). rewrite E at 1. symmetry. apply firstn_skipn.
      - split; [discriminate|]. intros (rest & Er). exfalso. apply E. rewrite Er. symmetry. apply firstn_length_app. }
    assert (P1 : forall rest, f_val aid = f_val t ++ rest -> f_len t = f_len aid -> rest = []).
    { intros rest Er El. destruct Wa as (La & _), Wt as (Lt & _). rewrite La, Lt in El. unfold Zlen in El.
      apply (f_equal (@length Z)) in Er. rewrite app_length in Er. destruct rest; [reflexivity|cbn [length] in Er; lia]. }
    assert (P2 : f_val aid = f_val t -> f_len t = f_len aid).
    { intro Er. destruct Wa as (La & _), Wt as (Lt & _). rewrite La, Lt, Er. reflexivity. }
    assert (P3 : forall rest, f_val aid = f_val t ++ rest -> f_len t <= f_len aid).
    { intros rest Er. destruct Wa as (La & _), Wt as (Lt & _). rewrite La, Lt, Er, Zlen_app. pose proof (Zlen_nonneg rest). lia. }
    assert (X : exists e, (if ((f_flags t =? 0) && (f_len t =? f_len aid))%bool
                  then mem_equal (f_val t) (f_val aid) (Z.to_nat (f_len t)) else Ret false) = Ret e /\
       (e = true <-> f_flags t = 0 /\ f_val t = f_val aid)).
    { destruct (Z.eqb_spec (f_flags t) 0) as [Ef|Ef]; cbn [andb].
      - destruct (Z.eqb_spec (f_len t) (f_len aid)) as [El|El].
        + destruct M as (e & Em & He); [lia|]. exists e. split; [exact Em|]. rewrite He. split.
          * intros (rest & Er). split; [exact Ef|]. rewrite (P1 _ Er El), app_nil_r in Er. auto.
          * intros (_ & Er). exists []. rewrite app_nil_r. auto.
        + exists false. split; [reflexivity|]. split; [discriminate|]. intros (_ & Er). exfalso. apply El, P2. auto.
      - exists false. split; [reflexivity|]. split; [discriminate|]. intros (Er & _). contradiction. }
    assert (Y : exists e, (if ((f_flags t =? 1) && (f_len t <=? f_len aid))%bool
                  then mem_equal (f_val t) (f_val aid) (Z.to_nat (f_len t)) else Ret false) = Ret e /\
       (e = true <-> f_flags t = 1 /\ exists rest, f_val aid = f_val t ++ rest)).
    { destruct (Z.eqb_spec (f_flags t) 1) as [Ef|Ef]; cbn [andb].
      - destruct (Z.leb_spec (f_len t) (f_len aid)) as [El|El].
        + destruct M as (e & Em & He); [lia|]. exists e. split; [exact Em|]. rewrite He. tauto.
        + exists false. split; [reflexivity|]. split; [discriminate|]. intros (_ & rest & Er). apply P3 in Er. lia.
      - exists false. split; [reflexivity|]. split; [discriminate|]. intros (Er & _). contradiction. }
    destruct X as (e1 & -> & H1), Y as (e2 & -> & H2). cbn [bind].
    assert (D : (exists t0, In t0 (t :: l) /\ aid_matches aid t0) <->
       (e1 = true \/ e2 = true) \/ (exists t0, In t0 l /\ aid_matches aid t0)).
    { rewrite H1, H2. split.
      - intros (u & [<-|Hin] & Hm); [left; exact Hm|right; eauto].
      - intros [Hm|(u & Hin & Hm)]; [exists t; split; [left; auto|exact Hm]|exists u; split; [right; auto|auto]]. }
    destruct e1; [exists true; split; [reflexivity|rewrite D; tauto]|].
    destruct e2; [exists true; split; [reflexivity|rewrite D; tauto]|].
    exists b. split; [exact IH|]. rewrite D, Hb. split; [auto|]. intros [[X|X]|X]; [discriminate|discriminate|exact X].
Qed.

(** ** Display names *)
Lemma strlen_text txt rest : Forall (fun b => b <> 0) txt -> strlen (txt ++ 0 :: rest) = Ret (length txt).
Proof.
  induction 1 as [|b txt Hb _ IH]; [reflexivity|]. cbn [app strlen length]. apply Z.eqb_neq in Hb. rewrite Hb, IH. reflexivity.
Qed.
Lemma Forall_filter_bool {A} (P : A -> bool) l : Forall (fun x => P x = true) (filter P l).
Proof. apply Forall_forall. intros x H. apply filter_In in H. tauto. Qed.
Lemma Forall_firstn' {A} (P : A -> Prop) n l : Forall P l -> Forall P (firstn n l).
Proof. intro H. rewrite <- (firstn_skipn n l) in H. apply Forall_app in H. tauto. Qed.
Lemma enc1_len c : (length (enc1 c) <= 2)%nat.
Proof. unfold enc1. destruct (c <? 0x80); cbn [length]; lia. Qed.
Lemma enc_len cs : (length (flat_map enc1 cs) <= 2 * length cs)%nat.
Proof. induction cs as [|c cs IH]; cbn [flat_map length]; [lia|]. rewrite app_length. pose proof (enc1_len c). lia. Qed.
Lemma text_zero : text_in (repeat 0 33) (repeat 0 33) [].
Proof. split; [cbn; lia|reflexivity]. Qed.

Lemma display_name_spec junk pse aid tlvs : length junk = 17%nat -> wf_field aid -> Forall wf_field tlvs ->
  (forall l, pse = Some l -> Forall wf_field l) ->
  let tables := match pse with Some l => l | None => tlvs end in
  (exists txt name, display tables tlvs (f_val aid) txt /\
     extract_display_name junk pse aid tlvs (repeat 0 33) = Ret (0, name) /\ text_in (repeat 0 33) name txt) \/
  ((forall cs, ~ preferred tables tlvs cs) /\ absent 0x50 tlvs /\ f_val aid = [] /\
   exists r name, r <> 0 /\ extract_display_name junk pse aid tlvs (repeat 0 33) = Ret (r, name)).
Proof.
  intros Lj Wa Wt Wp. cbv zeta. set (tables := match pse with Some l => l | None => tlvs end).
  assert (Wtab : Forall wf_field tables) by (subst tables; destruct pse; auto).
  unfold extract_display_name. fold tables.
  (* the label or the AID *)
  assert (Low : (forall cs, ~ preferred tables tlvs cs) ->
    let m := match find_tag 0x50 tlvs with
      | Some t => let* v := sub (f_val t) 0 (Z.to_nat (f_len t)) in
          let* (_, name) := ans_to_alnum_space_str v (repeat 0 33) in Ret (0, name)
      | None => let* v := sub (f_val aid) 0 (Z.to_nat (f_len aid)) in b_to_str v (repeat 0 33) end in
    (exists txt name, display tables tlvs (f_val aid) txt /\ m = Ret (0, name) /\ text_in (repeat 0 33) name txt) \/
    ((forall cs, ~ preferred tables tlvs cs) /\ absent 0x50 tlvs /\ f_val aid = [] /\
     exists r name, r <> 0 /\ m = Ret (r, name))).
  { intros NP. cbv zeta. destruct (find_tag 0x50 tlvs) as [t|] eqn:Ft.
    - left. assert (Wf : wf_field t).
      { apply find_tag_spec in Ft. destruct Ft as (pre & post & -> & _). apply Forall_app in Wt. destruct Wt as (_ & Wt). now inversion Wt. }
      rewrite (wf_sub t Wf). cbn [bind]. unfold ans_to_alnum_space_str.
      pose proof (d_label tables tlvs (f_val aid) t NP (proj1 (find_tag_spec _ _ _) Ft)) as D.
      destruct (f_val t) as [|b v] eqn:Ev.
      + cbn [length Nat.eqb orb bind]. do 2 eexists. split; [exact D|]. split; [reflexivity|exact text_zero].
      + cbn [length Nat.eqb repeat orb].
        destruct (ans_text alnum_space (b :: v) (repeat 0 33)) as (s & Es & Ts); [cbn; lia|].
        cbn [length Nat.eqb repeat] in Es. unfold alnum_space in Es. rewrite Es. cbn [bind].
        do 2 eexists. split; [exact D|]. split; [reflexivity|exact Ts].
    - rewrite (wf_sub aid Wa). cbn [bind]. apply find_tag_none in Ft. fold (absent 0x50 tlvs) in Ft.
      destruct (f_val aid) as [|b v] eqn:Ev.
      + right. unfold b_to_str. cbn [length Nat.eqb orb]. repeat (split; auto). exists (-1), (repeat 0 33). split; [lia|reflexivity].
      + left. destruct Wa as (_ & Ba & _). rewrite Ev in Ba.
        destruct (b_text (b :: v) (repeat 0 33) Ba) as (s & Es & Ts); [cbn; lia|cbn; lia|].
        do 2 eexists. split; [|split; [exact Es|exact Ts]].
        apply d_aid; auto. discriminate. }
  assert (NoTab : (forall idx, first_with 0x9F11 tables idx -> f_val idx <> [1]) -> forall cs, ~ preferred tables tlvs cs).
  { intros H cs (idx & t & Hi & Hv & _). exact (H idx Hi Hv). }
  assert (Tab : exists table, (match find_tag 0x9F11 tables with
    | Some t => if f_len t =? 1 then let* v := rd (f_val t) 0 in
                  Ret (if iso8859_is_supported v then v else 0) else Ret 0
    | None => Ret 0 end) = Ret table /\
    ((table = 1 /\ exists idx, first_with 0x9F11 tables idx /\ f_val idx = [1]) \/
     (table = 0 /\ forall idx, first_with 0x9F11 tables idx -> f_val idx <> [1]))).
  { destruct (find_tag 0x9F11 tables) as [t|] eqn:Ft.
    - assert (Wf : wf_field t).
      { apply find_tag_spec in Ft. destruct Ft as (pre & post & E & _). rewrite E in Wtab. apply Forall_app in Wtab. destruct Wtab as (_ & W). now inversion W. }
      assert (U : forall idx, first_with 0x9F11 tables idx -> idx = t).
      { intros idx Hi. apply find_tag_spec in Hi. congruence. }
      destruct Wf as (Lt & _ & _). destruct (Z.eqb_spec (f_len t) 1) as [E1|E1].
      + destruct (f_val t) as [|b [|b2 v]] eqn:Ev; unfold Zlen in Lt; cbn [length] in Lt; [lia| |lia].
        cbn [rd nth_error bind]. unfold rd. cbn [nth_error bind]. unfold iso8859_is_supported.
        destruct (Z.eqb_spec b 1) as [->|Hb]; cbn [negb].
        * exists 1. split; [reflexivity|]. left. split; [reflexivity|]. exists t. split; [apply find_tag_spec; exact Ft|exact Ev].
        * exists 0. split; [reflexivity|]. right. split; [reflexivity|]. intros idx Hi. rewrite (U idx Hi), Ev. congruence.
      + exists 0. split; [reflexivity|]. right. split; [reflexivity|]. intros idx Hi Hv. rewrite (U idx Hi) in Hv.
        rewrite Hv in Lt. cbn in Lt. contradiction.
    - exists 0. split; [reflexivity|]. right. split; [reflexivity|]. intros idx Hi. apply find_tag_spec in Hi. congruence. }
  destruct Tab as (table & -> & [(-> & idx & Hi & Hv)|(-> & Hno)]); cbn [bind Z.eqb].
  2:{ cbn [bind]. exact (Low (NoTab Hno)). }
  destruct (find_tag 0x9F12 tlvs) as [t|] eqn:Ft.
  2:{ cbn [bind]. apply Low. intros cs (i2 & t & _ & _ & Ht & _). apply find_tag_spec in Ht. congruence. }
  assert (Wf : wf_field t).
  { apply find_tag_spec in Ft. destruct Ft as (pre & post & -> & _). apply Forall_app in Wt. destruct Wt as (_ & W). now inversion W. }
  pose proof (proj1 (find_tag_spec _ _ _) Ft) as Ht.
  assert (U : forall t', first_with 0x9F12 tlvs t' -> t' = t) by (intros t' Hi'; apply find_tag_spec in Hi'; congruence).
  rewrite (wf_sub t Wf). cbn [bind]. unfold ans_to_non_control_str. rewrite Lj. cbn [Nat.eqb].
  destruct (Nat.eqb_spec (length (f_val t)) 0) as [El|El]; cbn [orb].
  { cbn [bind Z.eqb]. apply Low. intros cs (i2 & t' & _ & _ & Ht' & Ec & Nc). rewrite (U t' Ht') in Ec.
    destruct (f_val t); [|cbn [length] in El; lia]. apply Nc. exact Ec. }
  destruct (ans_text non_control (f_val t) junk) as (s & Es & (Ls & Ts)); [lia|].
  unfold non_control in Es. rewrite Es. cbn [bind Z.eqb]. rewrite Lj in *. cbn [Nat.sub] in *.
  fold non_control in *. set (cs := firstn 16 (filter non_control (f_val t))) in *.
  destruct Wf as (_ & Bt & _).
  assert (G : Forall graphic cs).
  { apply Forall_firstn'. apply Forall_forall. intros b Hb. apply filter_In in Hb. destruct Hb as (Hin & Hn).
    unfold bytes in Bt. rewrite Forall_forall in Bt. pose proof (Bt _ Hin) as Bb. unfold is_byte in Bb.
    unfold non_control in Hn. unfold graphic. lia. }
  assert (Nz : Forall (fun b => b <> 0) cs) by (eapply Forall_impl; [|exact G]; unfold graphic; lia).
  rewrite Ts, strlen_text by exact Nz. cbn [bind]. rewrite firstn_length_app.
  assert (Lc : (length cs <= 16)%nat) by (subst cs; rewrite firstn_length; lia).
  destruct cs as [|c cs'] eqn:Ecs.
  - unfold iso8859_to_utf8. cbn [length Nat.eqb orb bind]. apply Low.
    intros cs9 (i2 & t' & _ & _ & Ht' & Ec & Nc). rewrite (U t' Ht') in Ec. apply Nc. rewrite Ec. exact Ecs.
  - left. rewrite <- Ecs in *.
    assert (Hu : utf8_text cs (flat_map enc1 cs)) by now apply utf8_text_enc.
    pose proof (enc_len cs) as Le.
    pose proof (utf8_exact cs [] (repeat 0 33) (flat_map enc1 cs) G) as UE. rewrite app_nil_r in UE. rewrite UE; auto.
    + cbn [bind]. do 2 eexists. split; [|split; [reflexivity|]].
      * eapply d_preferred; [|exact Hu]. exists idx, t. repeat (split; auto). congruence.
      * split; [cbn [length repeat]; lia|reflexivity].
    + rewrite Ecs. cbn [length]. lia.
    + cbn [length repeat]. lia.
Qed.

Lemma priority_spec tlvs : Forall wf_field tlvs -> exists p conf, extract_priority tlvs = Ret (p, conf) /\ priority_of tlvs p conf.
Proof.
  intro W. unfold extract_priority. destruct (find_tag 0x87 tlvs) as [t|] eqn:Ft.
  - pose proof (proj1 (find_tag_spec _ _ _) Ft) as Ht.
    assert (Wf : wf_field t).
    { destruct Ht as (pre & post & -> & _). apply Forall_app in W. destruct W as (_ & W). now inversion W. }
    destruct Wf as (Lt & Bt & _). destruct (f_val t) as [|b v] eqn:Ev; unfold Zlen in Lt; cbn [length] in Lt.
    + destruct (Z.ltb_spec (f_len t) 1); [|lia]. do 2 eexists. split; [reflexivity|]. right; left. exists t. auto.
    + destruct (Z.ltb_spec (f_len t) 1); [lia|]. unfold rd. cbn [nth_error bind]. inversion Bt as [|? ? Hb _]; subst.
      pose proof (byte_sweep (fun b => ((Z.land b 15 =? b mod 16) && Bool.eqb (negb (Z.land b 128 =? 0)) (128 <=? b))%bool)
        ltac:(vm_compute; reflexivity) b Hb) as Sw. apply andb_true_iff in Sw. destruct Sw as (S1 & S2).
      apply Z.eqb_eq in S1. apply Bool.eqb_prop in S2. rewrite S1, S2.
      do 2 eexists. split; [reflexivity|]. right; right. exists t, b, v. repeat (split; auto); lia.
  - do 2 eexists. split; [reflexivity|]. left. split; [now apply find_tag_none|auto].
Qed.

(** ** Creation *)
Lemma field_of_wf buf f : small buf -> field_of buf f -> wf_field f.
Proof.
  intros S (pre & enc & post & fl & -> & He & _ & Hl & _). destruct He as [Hv (id & lf & -> & _)].
  split; [exact Hl|]. split; [exact Hv|]. unfold small, Zlen in *. rewrite !app_length in S. lia.
Qed.

Lemma app_build_spec junk pse tag tlvs : length junk = 17%nat -> Forall wf_field tlvs ->
  (forall l, pse = Some l -> Forall wf_field l) ->
  let tables := match pse with Some l => l | None => tlvs end in
  (exists a, app_build junk pse tag tlvs = Ret (Some a) /\ a_tlvs a = tlvs /\ good_app tables tag a) \/
  (app_build junk pse tag tlvs = Ret None /\
   (absent tag tlvs \/ exists aid, first_with tag tlvs aid /\ f_val aid = [])).
Proof.
  intros Lj Wt Wp. cbv zeta. unfold app_build. destruct (find_tag tag tlvs) as [aid|] eqn:Ft.
  2:{ right. split; [reflexivity|]. left. now apply find_tag_none. }
  pose proof (proj1 (find_tag_spec _ _ _) Ft) as Ht.
  assert (Wa : wf_field aid).
  { destruct Ht as (pre & post & -> & _). apply Forall_app in Wt. destruct Wt as (_ & W). now inversion W. }
  destruct (display_name_spec junk pse aid tlvs Lj Wa Wt Wp) as [(txt & name & D & E & T)|(NP & Ab & Ev & r & name & Hr & E)];
    rewrite E; cbn [bind].
  - cbn [Z.eqb negb]. destruct (priority_spec tlvs Wt) as (p & conf & Ep & Hp). rewrite Ep. cbn [bind].
    left. eexists. split; [reflexivity|]. split; [reflexivity|]. split; [exact Ht|]. cbn [a_tlvs a_aid a_name a_prio a_conf].
    split; [eauto|exact Hp].
  - apply Z.eqb_neq in Hr. rewrite Hr. cbn [negb]. right. split; [reflexivity|]. right. exists aid. auto.
Qed.

Lemma create_pse junk pse entry : length junk = 17%nat -> Forall wf_field pse -> bytes entry -> small entry ->
  (exists a ts, app_create_from_pse junk pse entry = Ret (Some a) /\ forest false entry ts /\
     a_tlvs a = flat_map leaves ts /\ good_app pse 0x4F a) \/
  (app_create_from_pse junk pse entry = Ret None /\
   forall ts, forest true entry ts -> absent 0x4F (flat_map leaves ts) \/
     exists aid, first_with 0x4F (flat_map leaves ts) aid /\ f_val aid = []).
Proof.
  intros Lj Wp Be Se. unfold app_create_from_pse.
  destruct (parse_any entry [] Be Se) as (r & added & E & Hr & Ff & Hts). rewrite E. cbn [bind app].
  assert (Comp : forall ts, forest true entry ts -> r = 0 /\ added = flat_map leaves ts).
  { intros ts Hf. pose proof (parse_forest entry ts [] Hf Se) as Ep. rewrite E in Ep. cbn [app] in Ep. inversion Ep. auto. }
  destruct (Z.eqb_spec r 0) as [->|Hr0]; cbn [negb].
  - assert (Wt : Forall wf_field added) by (eapply Forall_impl; [|exact Ff]; intros f; now apply field_of_wf).
    destruct (Hts eq_refl) as (ts & Hf & Ea).
    destruct (app_build_spec junk (Some pse) 0x4F added Lj Wt) as [(a & Eb & Et & Hg)|(Eb & Hn)].
    + intros l El. inversion El; subst; auto.
    + left. exists a, ts. repeat (split; auto). congruence.
    + right. split; [exact Eb|]. intros ts' Hf'. destruct (Comp ts' Hf') as (_ & <-). exact Hn.
  - right. split; [reflexivity|]. intros ts Hf. destruct (Comp ts Hf). contradiction.
Qed.

Lemma tag_loop_lb n : forall buf off acc r t, ber_tag_loop n buf off acc = Ret (r, t) -> -10 <= r.
Proof.
  induction n as [|n IH]; intros buf off acc r t E; cbn [ber_tag_loop] in E; [discriminate|].
  destruct (Nat.leb (length buf) off); [inversion E; lia|].
  apply bind_Ret_inv in E. destruct E as (b & _ & E).
  destruct (Z.land b 128 =? 0); [inversion E; lia|].
  destruct (Nat.leb 4 (S off)); [inversion E; lia|]. eapply IH; exact E.
Qed.
Lemma tag_decode_lb buf r t : ber_tag_decode buf = Ret (r, t) -> -10 <= r.
Proof.
  unfold ber_tag_decode. destruct (Nat.eqb (length buf) 0); [intro E; inversion E; lia|]. intro E.
  apply bind_Ret_inv in E. destruct E as (b & _ & E). destruct (Z.land b 31 =? 31); [|inversion E; lia].
  eapply tag_loop_lb; exact E.
Qed.
Lemma indef_lb n : forall buf off l e l', ber_indef_f n buf off l = Ret (e, l') -> -10 <= e.
Proof.
  induction n as [|n IH]; intros buf off l e l' E; cbn [ber_indef_f] in E; [discriminate|].
  apply bind_Ret_inv in E. destruct E as (rest & _ & E).
  apply bind_Ret_inv in E. destruct E as ((r & inner) & _ & E).
  destruct (r <? 0); [inversion E; lia|]. destruct (r =? 0); [inversion E; lia|].
  destruct inner as [t|]; [|discriminate]. destruct (b_tag t =? 0); [inversion E; lia|]. eapply IH; exact E.
Qed.
Lemma ber_decode_lb buf r t : ber_decode buf = Ret (r, t) -> -2147483648 <= r.
Proof.
  unfold ber_decode. cbn [ber_decode_f]. intro E.
  destruct (Nat.eqb (length buf) 0); [inversion E; lia|]. destruct (Nat.ltb (length buf) 2); [inversion E; lia|].
  apply bind_Ret_inv in E. destruct E as ((rt & tag) & Et & E). apply tag_decode_lb in Et.
  destruct (rt <=? 0); [inversion E; subst; lia|]. destruct (Nat.leb (length buf) (Z.to_nat rt)); [inversion E; lia|].
  apply bind_Ret_inv in E. destruct E as (b0 & _ & E). apply bind_Ret_inv in E. destruct E as (bl & _ & E).
  assert (Fin : forall o n, (if Zlen buf <? Z.of_nat o + n then Ret (-11, None)
            else let* v := sub buf o (Z.to_nat n) in
              Ret (to_int (Z.of_nat o + n), Some (mkBer tag n o v (Z.land b0 (Z.lor 0xC0 0x20))))) = Ret (r, t) ->
            -2147483648 <= r).
  { intros o n F. destruct (Zlen buf <? Z.of_nat o + n); [inversion F; lia|].
    apply bind_Ret_inv in F. destruct F as (v & _ & F). inversion F. unfold to_int.
    destruct (Z.ltb_spec ((Z.of_nat o + n) mod 4294967296) 2147483648); lia. }
  destruct (bl =? 0x80).
  - destruct (Z.land b0 0x20 =? 0); [inversion E; lia|].
    apply bind_Ret_inv in E. destruct E as ((e & l) & Ei & E).
    apply indef_lb in Ei. destruct (e <? 0); [inversion E; subst; lia|]. eapply Fin; exact E.
  - destruct (negb (Z.land bl 128 =? 0)); [|eapply Fin; exact E].
    destruct (Nat.ltb 4 _); [inversion E; lia|]. destruct (Nat.ltb (length buf) _); [inversion E; lia|].
    apply bind_Ret_inv in E. destruct E as (n & _ & E). eapply Fin; exact E.
Qed.

(** [r != fci_len] is exact for results of the decoder. *)
Lemma whole_length buf r t : bytes buf -> small buf -> ber_decode buf = Ret (r, t) ->
  (u64 r =? Zlen buf) = (r =? Zlen buf).
Proof.
  intros Hb Hs E. pose proof (ber_decode_lb _ _ _ E) as Lb.
  destruct (ber_decode_safe buf Hb Hs) as (r' & t' & E' & Hok). rewrite E in E'. inversion E'; subst r' t'.
  unfold small in Hs. pose proof (Zlen_nonneg buf) as Zn.
  assert (Hr : r <= Zlen buf) by (destruct t; cbn [ber_ok] in Hok; lia).
  unfold u64. destruct (Z.eqb_spec r (Zlen buf)) as [->|Hne].
  - rewrite Z.mod_small by lia. apply Z.eqb_refl.
  - apply Z.eqb_neq. destruct (Z.ltb_spec r 0).
    + replace (r mod 18446744073709551616) with (r + 18446744073709551616); [lia|].
      apply Z.mod_unique with (-1); lia.
    + rewrite Z.mod_small by lia. lia.
Qed.

Lemma create_fci junk fci : length junk = 17%nat -> bytes fci -> small fci -> fci <> [] ->
  (exists a t ts, app_create_from_fci junk fci = Ret (Some a) /\ piece fci t /\ b_tag t = 0x6F /\
     forest false (b_val t) ts /\ a_tlvs a = flat_map leaves ts /\ good_app (a_tlvs a) 0x84 a) \/
  (app_create_from_fci junk fci = Ret None /\
   forall flags v ts, encodes fci 0x6F flags v -> forest true v ts -> absent 0x84 (flat_map leaves ts) \/
     exists aid, first_with 0x84 (flat_map leaves ts) aid /\ f_val aid = []).
Proof.
  intros Lj Bf Sf Nf. unfold app_create_from_fci.
  destruct (ber_decode_safe fci Bf Sf) as (r & t & E & Hok). rewrite E. cbn [bind].
  rewrite (whole_length fci r t Bf Sf E).
  assert (Enc : forall flags v, encodes fci 0x6F flags v -> r = Zlen fci /\ exists o, t = Some o /\ b_tag o = 0x6F /\ b_val o = v).
  { intros flags v He. destruct (ber_decode_encodes fci 0x6F flags v [] He) as (off & Ed & _); [rewrite app_nil_r; exact Sf|].
    rewrite app_nil_r in Ed. rewrite E in Ed. inversion Ed; subst. split; [reflexivity|]. eexists. split; [reflexivity|]. auto. }
  assert (No : forall X : Prop, (r <> Zlen fci \/ forall o, t = Some o -> b_tag o <> 0x6F) ->
     forall flags v, encodes fci 0x6F flags v -> X).
  { intros X H flags v He. destruct (Enc flags v He) as (Hr & o & Ho & Ht & _). exfalso. destruct H as [H|H]; [auto|]. exact (H o Ho Ht). }
  destruct (Z.eqb_spec r (Zlen fci)) as [Hr|Hr]; cbn [negb].
  2:{ right. split; [reflexivity|]. intros flags v ts He _. exact (No _ (or_introl Hr) _ _ He). }
  destruct t as [t|].
  2:{ cbn [ber_ok] in Hok. exfalso. apply Nf. destruct fci; [reflexivity|]. unfold Zlen in Hr. cbn [length] in Hr. lia. }
  cbn [ber_ok] in Hok.
  destruct (Z.eqb_spec (b_tag t) 0x6F) as [Ht|Ht]; cbn [negb].
  2:{ right. split; [reflexivity|]. intros flags v ts He _. refine (No _ (or_intror _) _ _ He). intros o Ho. inversion Ho; subst. exact Ht. }
  destruct (decode_piece fci r t Bf Sf E) as (Hp & _).
  assert (Hall : firstn (Z.to_nat r) fci = fci) by (rewrite Hr; unfold Zlen; rewrite Nat2Z.id; apply firstn_all).
  rewrite Hall in Hp.
  assert (Bv : bytes (b_val t)). { destruct Hok as (_ & _ & _ & _ & ->). now apply bytes_firstn, bytes_skipn. }
  assert (Sv : small (b_val t)).
  { destruct Hok as (_ & _ & _ & _ & ->). unfold small, Zlen in *. rewrite firstn_length, skipn_length. lia. }
  destruct (parse_any (b_val t) [] Bv Sv) as (r2 & added & Ep & Hr2 & Ff & Hts). rewrite Ep. cbn [bind app].
  assert (Comp : forall flags v ts, encodes fci 0x6F flags v -> forest true v ts -> r2 = 0 /\ added = flat_map leaves ts).
  { intros flags v ts He Hf. destruct (Enc flags v He) as (_ & o & Ho & _ & Hv). inversion Ho; subst o v.
    pose proof (parse_forest (b_val t) ts [] Hf Sv) as Ep2. rewrite Ep in Ep2. cbn [app] in Ep2. inversion Ep2. auto. }
  destruct (Z.eqb_spec r2 0) as [->|Hr0]; cbn [negb].
  - assert (Wt : Forall wf_field added) by (eapply Forall_impl; [|exact Ff]; intros f; now apply field_of_wf).
    destruct (Hts eq_refl) as (ts & Hf & Ea).
    destruct (app_build_spec junk None 0x84 added Lj Wt) as [(a & Eb & Et & Hg)|(Eb & Hn)].
    + intros l El. discriminate.
    + left. exists a, t, ts. split; [exact Eb|]. rewrite Et. repeat (split; auto); congruence.
    + right. split; [exact Eb|]. intros fl v ts' He Hf'. destruct (Comp fl v ts' He Hf') as (_ & <-). exact Hn.
  - right. split; [reflexivity|]. intros fl v ts He Hf. destruct (Comp fl v ts He Hf). contradiction.
Qed.

Lemma chain_det h p cs : chain h p cs -> forall cs', chain h p cs' -> cs = cs'.
Proof.
  induction 1 as [|a ap nx cs E C IH]; intros cs' C'; inversion C'; subst; [reflexivity|].
  match goal with H : nth_error h a = Some _ |- _ => rewrite E in H; inversion H; subst end. f_equal. auto.
Qed.

Lemma ins_snd c cs : map snd (ins c cs) = insert_priority (snd c) (map snd cs).
Proof.
  induction cs as [|d cs IH]; [reflexivity|]. cbn [ins map insert_priority]. unfold prio.
  destruct (a_prio (snd d) =? 0); [reflexivity|].
  destruct (negb (a_prio (snd c) =? 0) && (a_prio (snd c) <? a_prio (snd d)))%bool; [reflexivity|].
  cbn [map]. now rewrite IH.
Qed.
Lemma fold_ins_snd cs : forall done, map snd (fold_left (fun d c => ins c d) cs done) =
  fold_left (fun d a => insert_priority a d) (map snd cs) (map snd done).
Proof. induction cs as [|c cs IH]; intro done; cbn [fold_left map]; [reflexivity|]. now rewrite IH, ins_snd. Qed.
Lemma sort_refines h l cs fuel : arep h l cs -> (length cs < fuel)%nat ->
  exists h' l' cs', alist_sort_priority fuel h l = Ret (0, h', l') /\ arep h' l' cs' /\
    map snd cs' = sort_priority (map snd cs).
Proof.
  intros R L. unfold alist_sort_priority. rewrite (arep_valid _ _ _ R). cbn [negb]. pose proof R as (_ & _ & N).
  destruct (sort_loop_spec cs h l alist_init [] fuel R (arep_init h)) as (h' & l' & E & R' & F & _);
    [rewrite app_nil_r; exact N|exact L|].
  exists h', l', (fold_left (fun d c => ins c d) cs []). split; [exact E|]. split; [exact R'|]. apply fold_ins_snd.
Qed.
