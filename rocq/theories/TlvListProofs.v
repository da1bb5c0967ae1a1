(** The TLV list refines a mathematical sequence for every history. *)
From Verif Require Import Base BaseLemmas TlvListModel TlvListSpec.

Definition is_live (h : heap) (a : nat) : Prop := exists n, load h a = Ret n.

(** ** Heap access *)
Lemma load_nth h a n : load h a = Ret n <-> nth_error h a = Some (Some n).
Proof.
  unfold load. destruct (nth_error h a) as [[m|]|]; split; intros E; inversion E; auto.
Qed.
Lemma load_lt h a n : load h a = Ret n -> (a < length h)%nat.
Proof. rewrite load_nth; intros E; apply nth_error_Some; congruence. Qed.
Lemma nth_error_upd {A} (l : list A) i j v :
  nth_error (upd l i v) j =
  if Nat.eqb i j then (if Nat.ltb i (length l) then Some v else None) else nth_error l j.
Proof.
  revert i j; induction l as [|x l IH]; intros i j; cbn [upd length].
  - destruct (Nat.eqb_spec i j); destruct j; auto.
  - destruct i, j; cbn [nth_error Nat.eqb]; auto.
    rewrite IH. destruct (Nat.eqb_spec i j); auto.
Qed.
Lemma load_upd h a b v : (a < length h)%nat ->
  load (upd h a v) b = if Nat.eqb a b then match v with Some n => Ret n | None => UB end
                       else load h b.
Proof.
  intros H. unfold load. rewrite nth_error_upd.
  destruct (Nat.eqb_spec a b); auto.
  destruct (Nat.ltb_spec a (length h)); [|lia]. destruct v; auto.
Qed.
Lemma load_app_l h x a : (a < length h)%nat -> load (h ++ x) a = load h a.
Proof. intros H; unfold load; now rewrite nth_error_app1. Qed.
Lemma load_app_new h n : load (h ++ [Some n]) (length h) = Ret n.
Proof. unfold load. rewrite nth_error_app2, Nat.sub_diag; auto. Qed.

(** ** Chains of nodes *)
Inductive seg (h : heap) : option nat -> list nat -> list field -> Prop :=
| seg_nil : seg h None [] []
| seg_cons a n l fs : load h a = Ret n -> seg h (n_next n) l fs ->
    seg h (Some a) (a :: l) (n_field n :: fs).

Definition lastopt (l : list nat) : option nat :=
  match rev l with [] => None | a :: _ => Some a end.
Lemma lastopt_snoc l a : lastopt (l ++ [a]) = Some a.
Proof. unfold lastopt. rewrite rev_app_distr. reflexivity. Qed.
Lemma lastopt_nil l : lastopt l = None -> l = [].
Proof.
  unfold lastopt. intros H. destruct (rev l) eqn:E; [|discriminate].
  apply (f_equal (@rev nat)) in E. rewrite rev_involutive in E. exact E.
Qed.
Lemma lastopt_app l b l2 : lastopt (l ++ b :: l2) = lastopt (b :: l2).
Proof.
  unfold lastopt. rewrite rev_app_distr.
  destruct (rev (b :: l2)) eqn:E; [|reflexivity].
  apply (f_equal (@length nat)) in E. rewrite rev_length in E. discriminate.
Qed.
Lemma lastopt_cons a l : l <> [] -> lastopt (a :: l) = lastopt l.
Proof. destruct l; [congruence|]. intros _. exact (lastopt_app [a] _ l). Qed.

Definition rep (h : heap) (l : tlist) (addrs : list nat) (fs : list field) : Prop :=
  seg h (front l) addrs fs /\ back l = lastopt addrs.

Lemma seg_frame h h' p l fs : seg h p l fs ->
  (forall a, In a l -> load h' a = load h a) -> seg h' p l fs.
Proof.
  induction 1 as [|a n l fs E S IH]; intros F; constructor.
  - rewrite F; auto. left; auto.
  - apply IH. intros; apply F; right; auto.
Qed.
Lemma rep_frame h h' l addrs fs : rep h l addrs fs ->
  (forall a, In a addrs -> load h' a = load h a) -> rep h' l addrs fs.
Proof. intros [S B] F. split; auto. eapply seg_frame; eauto. Qed.

Lemma seg_live h p l fs a : seg h p l fs -> In a l -> is_live h a.
Proof.
  induction 1 as [|a' n l fs E S IH]; intros Hin; [destruct Hin|].
  destruct Hin as [->|Hin]; [exists n; auto|auto].
Qed.
Lemma seg_len h p l fs : seg h p l fs -> length l = length fs.
Proof. induction 1; simpl; auto. Qed.

Lemma rep_valid h l addrs fs : rep h l addrs fs -> list_is_valid l = true.
Proof.
  intros [S B]. unfold list_is_valid. inversion S; subst.
  - rewrite B. reflexivity.
  - destruct (back l) eqn:E; auto.
    symmetry in B. apply lastopt_nil in B. discriminate.
Qed.

Lemma rep_init h : rep h tlist_init [] [].
Proof. split; [constructor|reflexivity]. Qed.

(** The last node of a nonempty chain. *)
Lemma seg_snoc_inv h p l b fs : seg h p (l ++ [b]) fs ->
  exists fs0 f, fs = fs0 ++ [f] /\ load h b = Ret (mkNode f None).
Proof.
  revert p fs; induction l as [|a l IH]; intros p fs S; inversion S; subst.
  - match goal with H : seg _ _ [] _ |- _ => inversion H; subst end.
    exists [], (n_field n). split; auto. destruct n; simpl in *; congruence.
  - match goal with H : seg _ _ (l ++ [b]) _ |- _ => apply IH in H; destruct H as (fs1 & f & -> & E) end.
    exists (n_field n :: fs1), f. split; auto.
Qed.

(** Redirecting the last [next] pointer appends another chain. *)
Lemma seg_link h h' p l b fs q l2 fs2 :
  seg h p (l ++ [b]) fs -> ~ In b l ->
  (forall a, In a l -> load h' a = load h a) ->
  (forall f, load h b = Ret (mkNode f None) -> load h' b = Ret (mkNode f q)) ->
  seg h' q l2 fs2 ->
  seg h' p ((l ++ [b]) ++ l2) (fs ++ fs2).
Proof.
  revert p fs; induction l as [|a l IH]; intros p fs S Hb F Fb S2; inversion S; subst.
  - match goal with H : seg _ _ [] _ |- _ => inversion H; subst end. cbn [app].
    assert (En : n = mkNode (n_field n) None) by (destruct n; simpl in *; congruence).
    assert (E' : load h' b = Ret (mkNode (n_field n) q)).
    { apply Fb. match goal with H : load h b = _ |- _ => rewrite H end. congruence. }
    apply (seg_cons h' b _ l2 fs2 E' S2).
  - cbn [app]. constructor.
    + rewrite F; auto. left; auto.
    + apply IH; auto.
      * intros Hx. apply Hb; right; auto.
      * intros; apply F; right; auto.
Qed.

Lemma destruct_last (l : list nat) : l = [] \/ exists l0 b, l = l0 ++ [b].
Proof.
  destruct l as [|x l]; auto. right.
  destruct (exists_last (l := x :: l)) as (l0 & b & E); [congruence|]. eauto.
Qed.

(** ** The operations *)
Lemma push_spec h l addrs fs f : rep h l addrs fs -> NoDup addrs ->
  exists h' l', list_push h l f = Ret (0, h', l') /\
    rep h' l' (addrs ++ [length h]) (fs ++ [f]) /\
    (forall a, ~ In a addrs -> (a < length h)%nat -> load h' a = load h a) /\
    (forall a, is_live h' a <-> is_live h a \/ a = length h).
Proof.
  intros R ND. pose proof (rep_valid _ _ _ _ R) as V. unfold list_push. rewrite V. cbn [negb alloc].
  destruct R as [S B]. set (h1 := h ++ [Some (mkNode f None)]).
  destruct (destruct_last addrs) as [->|(l0 & b & ->)].
  - change (lastopt []) with (@None nat) in B. rewrite B. inversion S; subst.
    do 2 eexists. split; [reflexivity|]. split; [|split].
    + split; [|reflexivity]. cbn [app front].
      apply (seg_cons h1 (length h) (mkNode f None) [] []); [apply load_app_new|constructor].
    + intros a _ Ha. now apply load_app_l.
    + intros a. unfold is_live. destruct (Nat.ltb_spec a (length h)).
      * subst h1. rewrite load_app_l by auto. intuition lia.
      * destruct (Nat.eqb_spec a (length h)) as [->|].
        -- subst h1. rewrite load_app_new. split; eauto.
        -- split; [intros (n9 & E)|intros [(n9 & E)|]]; try lia.
           ++ apply load_lt in E. subst h1. rewrite app_length in E; cbn in E; lia.
           ++ apply load_lt in E. lia.
  - rewrite lastopt_snoc in B. rewrite B.
    destruct (seg_snoc_inv _ _ _ _ _ S) as (fs0 & fb & -> & Eb).
    assert (Hbl : (b < length h)%nat) by (eapply load_lt; eauto).
    assert (Eb1 : load h1 b = Ret (mkNode fb None)) by (subst h1; now rewrite load_app_l).
    rewrite Eb1; cbn [bind n_field]. unfold store. rewrite Eb1; cbn [bind].
    set (h2 := upd h1 b (Some (mkNode fb (Some (length h))))).
    assert (Hb1 : (b < length h1)%nat) by (eapply load_lt; eauto).
    assert (L2 : forall a, load h2 a =
       if Nat.eqb b a then Ret (mkNode fb (Some (length h))) else load h1 a)
      by (intros; subst h2; now rewrite load_upd).
    do 2 eexists. split; [reflexivity|]. split; [|split].
    + split; [|cbn [back]; now rewrite lastopt_snoc]. cbn [front].
      eapply (seg_link h h2 (front l) l0 b (fs0 ++ [fb]) (Some (length h)) [length h] [f]); eauto.
      * apply NoDup_remove_2 in ND. rewrite app_nil_r in ND. exact ND.
      * intros a Ha. rewrite L2. destruct (Nat.eqb_spec b a) as [->|].
        { apply NoDup_remove_2 in ND. rewrite app_nil_r in ND. contradiction. }
        subst h1. apply load_app_l.
        destruct (seg_live _ _ _ _ a S) as (n9 & E); [apply in_or_app; auto|]. eapply load_lt; eauto.
      * intros f' E'. rewrite Eb in E'. inversion E'; subst. rewrite L2, Nat.eqb_refl. reflexivity.
      * apply (seg_cons h2 (length h) (mkNode f None) [] []); [|constructor].
        rewrite L2. destruct (Nat.eqb_spec b (length h)); [lia|]. subst h1. apply load_app_new.
    + intros a Ha Hl. rewrite L2. destruct (Nat.eqb_spec b a) as [->|].
      { exfalso. apply Ha. apply in_or_app; right; left; auto. }
      subst h1; now apply load_app_l.
    + intros a. unfold is_live. rewrite L2. destruct (Nat.eqb_spec b a) as [<-|].
      * split; [|eauto]. intros _. left. eauto.
      * destruct (Nat.ltb_spec a (length h)).
        -- subst h1. rewrite load_app_l by auto. intuition lia.
        -- destruct (Nat.eqb_spec a (length h)) as [->|].
           ++ subst h1. rewrite load_app_new. split; eauto.
           ++ split; [intros (n9 & E)|intros [(n9 & E)|]]; try lia.
              ** apply load_lt in E. subst h1. rewrite app_length in E; cbn in E; lia.
              ** apply load_lt in E. lia.
Qed.

Lemma pop_spec h l a addrs f fs : rep h l (a :: addrs) (f :: fs) -> NoDup (a :: addrs) ->
  exists h' l', list_pop h l = Ret (Some a, h', l') /\
    rep h' l' addrs fs /\ load h' a = Ret (mkNode f None) /\
    (forall x, x <> a -> load h' x = load h x).
Proof.
  intros R ND. pose proof (rep_valid _ _ _ _ R) as V. unfold list_pop. rewrite V. cbn [negb].
  destruct R as [S B]. inversion S as [|a' n l' fs' E S' Ef]; subst.
  rewrite E; cbn [bind]. unfold store. rewrite E; cbn [bind].
  pose proof (load_lt _ _ _ E) as Ha.
  do 2 eexists. split; [reflexivity|]. split; [|split].
  - split; cbn [front back].
    + eapply seg_frame; [exact S'|]. intros x Hx. rewrite load_upd by auto.
      destruct (Nat.eqb_spec a x) as [->|]; auto. inversion ND; contradiction.
    + inversion S'; subst; [reflexivity|]. rewrite B. apply lastopt_cons. congruence.
  - rewrite load_upd, Nat.eqb_refl by auto. reflexivity.
  - intros x Hx. rewrite load_upd by auto. destruct (Nat.eqb_spec a x); congruence.
Qed.

Lemma pop_empty h l : rep h l [] [] -> list_pop h l = Ret (None, h, l).
Proof.
  intros R. pose proof (rep_valid _ _ _ _ R) as V. unfold list_pop. rewrite V. cbn [negb].
  destruct R as [S B]. inversion S; subst. reflexivity.
Qed.

Lemma free_spec h a f : load h a = Ret (mkNode f None) ->
  exists h', tlv_free h a = Ret (0, h') /\ load h' a = UB /\
    (forall x, x <> a -> load h' x = load h x).
Proof.
  intros E. pose proof (load_lt _ _ _ E) as Ha. unfold tlv_free, release.
  rewrite E; cbn [bind n_next].
  eexists. split; [reflexivity|]. split.
  - rewrite load_upd, Nat.eqb_refl by auto. reflexivity.
  - intros x Hx. rewrite load_upd by auto. destruct (Nat.eqb_spec a x); congruence.
Qed.

Lemma append_spec h l o a1 f1 a2 f2 : rep h l a1 f1 -> rep h o a2 f2 -> NoDup (a1 ++ a2) ->
  exists h' l', list_append h l o = Ret (0, h', l', tlist_init) /\
    rep h' l' (a1 ++ a2) (f1 ++ f2) /\
    (forall x, ~ In x a1 -> load h' x = load h x) /\
    (forall x, is_live h' x <-> is_live h x).
Proof.
  intros R1 R2 ND. pose proof (rep_valid _ _ _ _ R1) as V1. pose proof (rep_valid _ _ _ _ R2) as V2.
  unfold list_append. rewrite V1, V2. cbn [negb].
  destruct R1 as [S1 B1], R2 as [S2 B2].
  destruct (destruct_last a1) as [->|(l0 & b & ->)].
  - inversion S1; subst. change (lastopt []) with (@None nat) in B1. rewrite B1. cbn [bind].
    do 2 eexists. split; [reflexivity|]. split; [|split].
    + split; cbn [front back app]; auto. rewrite B2. destruct (lastopt a2); reflexivity.
    + auto.
    + tauto.
  - rewrite lastopt_snoc in B1. rewrite B1.
    destruct (seg_snoc_inv _ _ _ _ _ S1) as (fs0 & fb & -> & Eb).
    assert (Hbl : (b < length h)%nat) by (eapply load_lt; eauto).
    rewrite Eb; cbn [bind n_field]. unfold store. rewrite Eb; cbn [bind].
    set (h2 := upd h b (Some (mkNode fb (front o)))).
    assert (L2 : forall a, load h2 a =
       if Nat.eqb b a then Ret (mkNode fb (front o)) else load h a)
      by (intros; subst h2; now rewrite load_upd).
    assert (NDb : ~ In b l0 /\ ~ In b a2).
    { rewrite <- app_assoc in ND. cbn [app] in ND. apply NoDup_remove_2 in ND.
      split; intros Hx; apply ND; apply in_or_app; auto. }
    do 2 eexists. split; [reflexivity|]. split; [|split].
    + split; cbn [front back].
      * eapply (seg_link h h2 (front l) l0 b); eauto.
        -- tauto.
        -- intros a Ha. rewrite L2. destruct (Nat.eqb_spec b a) as [->|]; tauto.
        -- intros f' E'. rewrite Eb in E'. inversion E'; subst. rewrite L2, Nat.eqb_refl. reflexivity.
        -- eapply seg_frame; [exact S2|]. intros a Ha. rewrite L2.
           destruct (Nat.eqb_spec b a) as [->|]; tauto.
      * rewrite B2. destruct a2 as [|c a2].
        -- rewrite app_nil_r, lastopt_snoc. reflexivity.
        -- rewrite lastopt_app. destruct (lastopt (c :: a2)) eqn:Q; auto.
           apply lastopt_nil in Q. discriminate.
    + intros x Hx. rewrite L2. destruct (Nat.eqb_spec b x) as [->|]; auto.
      exfalso. apply Hx, in_or_app; right; left; auto.
    + intros x. unfold is_live. rewrite L2. destruct (Nat.eqb_spec b x) as [<-|]; [|tauto].
      split; eauto.
Qed.

Lemma clear_loop_spec addrs : forall fuel h l fs, rep h l addrs fs -> NoDup addrs ->
  (length addrs < fuel)%nat ->
  exists h', list_clear_loop fuel h l = Ret (h', tlist_init) /\
    (forall x, ~ In x addrs -> load h' x = load h x) /\
    (forall x, In x addrs -> ~ is_live h' x).
Proof.
  induction addrs as [|a addrs IH]; intros fuel h l fs R ND Hf;
    (destruct fuel as [|fuel]; [lia|]); cbn [list_clear_loop].
  - destruct R as [S B]. inversion S as [HF|]; subst. change (lastopt []) with (@None nat) in B.
    rewrite B. destruct l as [fr bk]; cbn in HF, B; subst fr bk. eexists. split; [reflexivity|]. split; [auto|intros x []].
  - destruct R as [S B]. inversion S as [|a' n l' fs' E S' HF]; subst.
    destruct (pop_spec h l a addrs (n_field n) fs') as (h1 & l1 & Ep & R1 & E1 & F1);
      [split; auto| auto|].
    rewrite Ep; cbn [bind].
    destruct (free_spec h1 a (n_field n) E1) as (h2 & Ef & E2 & F2).
    rewrite Ef; cbn [bind Z.eqb].
    assert (Ha : ~ In a addrs) by (inversion ND; auto).
    destruct (IH fuel h2 l1 fs') as (h' & Ec & F3 & D3).
    + eapply rep_frame; [exact R1|]. intros x Hx. apply F2. congruence.
    + inversion ND; auto.
    + cbn [length] in Hf; lia.
    + exists h'. split; [exact Ec|]. split.
      * intros x Hx. rewrite F3, F2, F1; auto; try (intros ->; apply Hx; left; auto).
        intros Hy; apply Hx; right; auto.
      * intros x [<-|Hx]; [|auto]. intros (n' & En). rewrite F3 in En by auto. congruence.
Qed.

Lemma find_loop_spec h p l fs tag : seg h p l fs -> forall fuel, (length l < fuel)%nat ->
  exists q, find_loop fuel h p tag = Ret q /\
    match q with
    | None => first_with tag fs = None
    | Some a => exists n, load h a = Ret n /\ first_with tag fs = Some (n_field n)
    end.
Proof.
  induction 1 as [|a n l fs E S IH]; intros fuel Hf; (destruct fuel as [|fuel]; [lia|]);
    cbn [find_loop].
  - eexists; split; [reflexivity|]. reflexivity.
  - rewrite E; cbn [bind]. unfold first_with; cbn [find].
    destruct (f_tag (n_field n) =? tag).
    + eexists; split; [reflexivity|]. simpl. eauto.
    + apply IH. cbn [length] in Hf; lia.
Qed.

Lemma first_with_existsb tag fs :
  existsb (Z.eqb tag) (map f_tag fs) = match first_with tag fs with Some _ => true | None => false end.
Proof.
  unfold first_with. induction fs as [|f fs IH]; auto. cbn [map existsb find].
  rewrite Z.eqb_sym. destruct (f_tag f =? tag); auto.
Qed.

Lemma dup_loop_spec h p l fs : seg h p l fs -> forall fuel, (length l < fuel)%nat ->
  dup_loop fuel h p = Ret (has_dup (map f_tag fs)).
Proof.
  induction 1 as [|a n l fs E S IH]; intros fuel Hf; (destruct fuel as [|fuel]; [lia|]);
    cbn [dup_loop].
  - reflexivity.
  - rewrite E; cbn [bind]. cbn [length] in Hf.
    destruct (find_loop_spec h _ _ _ (f_tag (n_field n)) S fuel) as (q & Eq & Hq); [lia|].
    rewrite Eq; cbn [bind map has_dup]. rewrite first_with_existsb.
    destruct q as [b|].
    + destruct Hq as (m & _ & ->). reflexivity.
    + rewrite Hq. cbn [orb]. apply IH. lia.
Qed.

Lemma walk_spec h p l fs : seg h p l fs -> forall fuel, (length l < fuel)%nat ->
  walk fuel h p = Ret fs.
Proof.
  induction 1 as [|a n l fs E S IH]; intros fuel Hf; (destruct fuel as [|fuel]; [lia|]);
    cbn [walk]; [reflexivity|].
  rewrite E; cbn [bind]. rewrite IH by (cbn [length] in Hf; lia). reflexivity.
Qed.

(** ** The machine invariant.  [A i] are the addresses of list [i]. *)
Record Inv (k : nat) (m : machine) (s : smachine) (A : nat -> list nat) : Prop := {
  inv_len : length (m_lists m) = k;
  inv_slen : length (s_lists s) = k;
  inv_rep : forall i l, rd (m_lists m) i = Ret l ->
    rep (m_heap m) l (A i) (nth i (s_lists s) []);
  inv_out : forall i, (k <= i)%nat -> A i = [];
  inv_nd : forall i, NoDup (A i);
  inv_disj : forall i j a, In a (A i) -> In a (A j) -> i = j;
  inv_ndh : NoDup (m_held m);
  inv_dh : forall i a, In a (A i) -> In a (m_held m) -> False;
  inv_held : Forall2 (fun a f => load (m_heap m) a = Ret (mkNode f None)) (m_held m) (s_held s);
  inv_live : forall a, is_live (m_heap m) a <-> (exists i, In a (A i)) \/ In a (m_held m) }.

Lemma rd_upd {B} (l : list B) i j v x : (i < length l)%nat -> rd (upd l i v) j = Ret x ->
  (i = j /\ x = v) \/ (i <> j /\ rd l j = Ret x).
Proof.
  intros Hi H. apply rd_Ret in H. rewrite nth_error_upd in H.
  destruct (Nat.eqb_spec i j).
  - left. destruct (Nat.ltb_spec i (length l)); [|lia]. inversion H; auto.
  - right. split; auto. now apply rd_Ret.
Qed.
Lemma nth_upd {B} (l : list B) i j v d : (i < length l)%nat ->
  nth j (upd l i v) d = if Nat.eqb i j then v else nth j l d.
Proof.
  intros Hi. destruct (nth_error (upd l i v) j) as [x|] eqn:E.
  - rewrite (nth_error_nth _ _ d E). rewrite nth_error_upd in E.
    destruct (Nat.eqb_spec i j).
    + destruct (Nat.ltb_spec i (length l)); [|lia]. congruence.
    + symmetry. now apply nth_error_nth.
  - pose proof E as E2. rewrite nth_error_upd in E2. apply nth_error_None in E.
    rewrite upd_length in E.
    destruct (Nat.eqb_spec i j); [lia|].
    rewrite !nth_overflow; auto. now rewrite upd_length.
Qed.

Definition setA (A : nat -> list nat) (i : nat) (v : list nat) : nat -> list nat :=
  fun j => if Nat.eqb i j then v else A j.

Lemma addrs_bound k m s A i : Inv k m s A -> (length (A i) <= length (m_heap m))%nat.
Proof.
  intros I. rewrite <- (seq_length (length (m_heap m)) 0).
  apply NoDup_incl_length; [apply (inv_nd _ _ _ _ I)|].
  intros a Ha. apply in_seq. split; [lia|]. cbn.
  destruct (proj2 (inv_live _ _ _ _ I a)) as (n9 & E); eauto. eapply load_lt; eauto.
Qed.

Lemma held_live (m : machine) (s : smachine) a :
  Forall2 (fun a f => load (m_heap m) a = Ret (mkNode f None)) (m_held m) (s_held s) ->
  In a (m_held m) -> is_live (m_heap m) a.
Proof.
  induction 1 as [|a' f' l fs E H IH]; intros Hin; [destruct Hin|].
  destruct Hin as [->|Hin]; [eexists; eauto|auto].
Qed.

Lemma Forall2_len {A B} (R : A -> B -> Prop) l l' : Forall2 R l l' -> length l = length l'.
Proof. induction 1; cbn [length]; auto. Qed.

Lemma Forall2_frame h h' l fs :
  Forall2 (fun a f => load h a = Ret (mkNode f None)) l fs ->
  (forall a, In a l -> load h' a = load h a) ->
  Forall2 (fun a f => load h' a = Ret (mkNode f None)) l fs.
Proof.
  induction 1 as [|a f l fs E H IH]; intros F; constructor.
  - rewrite F; auto. left; auto.
  - apply IH. intros; apply F; right; auto.
Qed.

Lemma rd_in_range {B} (l : list B) i : (i < length l)%nat -> exists x, rd l i = Ret x.
Proof. apply rd_total. Qed.

Lemma NoDup_app_intro {B} (a b : list B) : NoDup a -> NoDup b ->
  (forall x, In x a -> In x b -> False) -> NoDup (a ++ b).
Proof.
  induction a as [|x a IH]; intros H1 H2 H3; cbn [app]; auto. inversion H1; subst. constructor.
  - intros Hx. apply in_app_or in Hx. destruct Hx; [contradiction|]. apply (H3 x); auto. left; auto.
  - apply IH; auto. intros y H15 H16. apply (H3 y); auto. right; auto.
Qed.

Lemma step_ok k m s A o : Inv k m s A -> op_ok k o ->
  exists r m' s' A', step m o = Ret (r, m') /\ sstep s o = (r, s') /\ Inv k m' s' A'.
Proof.
  intros I Hop. destruct I as [Il Is Ir Io In_ Id Ih Idh Ihe Ilv].
  assert (I0 : Inv k m s A) by (constructor; auto).
  destruct o as [i f|i| |i j|i|i tag|i|i]; cbn [op_ok step sstep] in *.
  - (* push *)
    destruct (rd_in_range (m_lists m) i) as [l El]; [lia|]. rewrite El; cbn [bind].
    pose proof (Ir i l El) as R.
    destruct (push_spec (m_heap m) l (A i) _ f R (In_ i)) as (h' & l' & Ep & R' & F & LV).
    rewrite Ep; cbn [bind].
    assert (Hfresh : forall a, is_live (m_heap m) a -> (a < length (m_heap m))%nat)
      by (intros a (n9 & E); eapply load_lt; eauto).
    assert (HinA : forall j a, In a (A j) -> (a < length (m_heap m))%nat)
      by (intros j a Ha; apply Hfresh, Ilv; eauto).
    exists (RCode 0). do 2 eexists. exists (setA A i (A i ++ [length (m_heap m)])).
    split; [reflexivity|]. split; [reflexivity|]. unfold set_list, slist.
    constructor; cbn [m_heap m_lists m_held s_lists s_held].
    + now rewrite upd_length.
    + now rewrite upd_length.
    + intros j l2 E2. apply rd_upd in E2; [|lia]. unfold setA. rewrite nth_upd by lia.
      destruct E2 as [[-> ->]|[Hne E2]].
      * rewrite Nat.eqb_refl. exact R'.
      * destruct (Nat.eqb_spec i j); [contradiction|].
        eapply rep_frame; [apply Ir; exact E2|]. intros a Ha. apply F; eauto.
    + intros j Hj. unfold setA. destruct (Nat.eqb_spec i j); [lia|]. auto.
    + intros j. unfold setA. destruct (Nat.eqb_spec i j); auto.
      apply NoDup_Add with (a := length (m_heap m)) (l := A i).
      * rewrite <- (app_nil_r (A i)) at 1. apply Add_app.
      * split; auto. intros Hx. apply HinA in Hx. lia.
    + intros j1 j2 a. unfold setA.
      destruct (Nat.eqb_spec i j1), (Nat.eqb_spec i j2); subst; auto; intros H1 H2.
      * apply in_app_or in H1. destruct H1 as [H1|[<-|[]]]; [eauto|].
        apply HinA in H2. lia.
      * apply in_app_or in H2. destruct H2 as [H2|[<-|[]]]; [eauto|].
        apply HinA in H1. lia.
      * eauto.
    + auto.
    + intros j a. unfold setA. destruct (Nat.eqb_spec i j); [|eauto]. subst.
      intros H1 H2. apply in_app_or in H1. destruct H1 as [H1|[<-|[]]]; [eauto|].
      apply (held_live m s) in H2; auto. apply Hfresh in H2. lia.
    + eapply Forall2_frame; [exact Ihe|]. intros a Ha. apply F; eauto.
      apply Hfresh. eapply held_live; eauto.
    + intros a. rewrite LV, Ilv. unfold setA. split.
      * intros [[(j & Hj)|Hh]| ->].
        -- left. exists j. destruct (Nat.eqb_spec i j); subst; auto. apply in_or_app; auto.
        -- auto.
        -- left. exists i. rewrite Nat.eqb_refl. apply in_or_app; right; left; auto.
      * intros [(j & Hj)|Hh]; [|auto]. destruct (Nat.eqb_spec i j); subst; eauto.
        apply in_app_or in Hj. destruct Hj as [Hj|[<-|[]]]; eauto.
  - (* pop *)
    destruct (rd_in_range (m_lists m) i) as [l El]; [lia|]. rewrite El; cbn [bind].
    pose proof (Ir i l El) as R. unfold slist.
    pose proof (seg_len _ _ _ _ (proj1 R)) as Hlen.
    destruct (A i) as [|a addrs] eqn:EA; destruct (nth i (s_lists s) []) as [|f fs] eqn:EF;
      try discriminate Hlen.
    + rewrite pop_empty by auto. cbn [bind].
      assert (Eu : upd (m_lists m) i l = m_lists m).
      { clear - El. revert i El; generalize (m_lists m) as L; induction L as [|x L IH];
          intros [|i] E; cbn [upd]; auto; [inversion E; auto|].
        f_equal. apply IH. exact E. }
      rewrite Eu. exists (RField None), m, s, A. split; [destruct m; reflexivity|]. split; [reflexivity|exact I0].
    + assert (ND : NoDup (a :: addrs)) by (rewrite <- EA; auto).
      destruct (pop_spec (m_heap m) l a addrs f fs R ND) as (h' & l' & Ep & R' & Ea & F).
      rewrite Ep; cbn [bind]. rewrite Ea; cbn [bind n_field].
      assert (HaA : In a (A i)) by (rewrite EA; left; auto).
      assert (LV : forall x, is_live h' x <-> is_live (m_heap m) x).
      { intros x. unfold is_live. destruct (Nat.eq_dec x a) as [->|Hx].
        - split; [|eauto]. intros _. apply Ilv. eauto.
        - rewrite F by auto. tauto. }
      do 3 eexists. exists (setA A i addrs).
      split; [reflexivity|]. split; [reflexivity|].
      constructor; cbn [m_heap m_lists m_held s_lists s_held].
      * now rewrite upd_length.
      * now rewrite upd_length.
      * intros j l2 E2. apply rd_upd in E2; [|lia]. unfold setA. rewrite nth_upd by lia.
        destruct E2 as [[-> ->]|[Hne E2]].
        -- rewrite Nat.eqb_refl. exact R'.
        -- destruct (Nat.eqb_spec i j); [contradiction|].
           eapply rep_frame; [apply Ir; exact E2|]. intros x Hx. apply F. intros ->.
           apply Hne. eauto.
      * intros j Hj. unfold setA. destruct (Nat.eqb_spec i j); [lia|]. auto.
      * intros j. unfold setA. destruct (Nat.eqb_spec i j); auto. inversion ND; auto.
      * intros j1 j2 x. unfold setA.
        destruct (Nat.eqb_spec i j1), (Nat.eqb_spec i j2); subst; auto; intros H1 H2.
        -- apply (Id j1 j2 x); auto. rewrite EA; right; auto.
        -- apply (Id j1 j2 x); auto. rewrite EA; right; auto.
        -- eauto.
      * apply NoDup_Add with (a := a) (l := m_held m).
        -- rewrite <- (app_nil_r (m_held m)) at 1. apply Add_app.
        -- split; auto. intros Hx. eapply Idh; eauto.
      * intros j x. unfold setA. intros H1 H2. apply in_app_or in H2.
        destruct (Nat.eqb_spec i j); subst.
        -- destruct H2 as [H2|[<-|[]]]; [|inversion ND; contradiction].
           apply (Idh j x); auto. rewrite EA; right; auto.
        -- destruct H2 as [H2|[<-|[]]]; [eauto|]. eauto.
      * apply Forall2_app; [|repeat constructor; exact Ea].
        eapply Forall2_frame; [exact Ihe|]. intros x Hx. apply F. intros ->. eauto.
      * intros x. rewrite LV, Ilv. unfold setA. split.
        -- intros [(j & Hj)|Hh]; [|right; apply in_or_app; auto].
           destruct (Nat.eq_dec i j) as [<-|Hne].
           ++ rewrite EA in Hj. destruct Hj as [<-|Hj]; [right; apply in_or_app; right; left; auto|].
              left. exists i. rewrite Nat.eqb_refl. auto.
           ++ left. exists j. destruct (Nat.eqb_spec i j); [contradiction|]. auto.
        -- intros [(j & Hj)|Hh].
           ++ destruct (Nat.eqb_spec i j); subst; eauto. left. exists j. rewrite EA; right; auto.
           ++ apply in_app_or in Hh. destruct Hh as [Hh|[<-|[]]]; eauto.
  - (* free *)
    destruct (m_held m) as [|a held] eqn:EH; destruct (s_held s) as [|f sheld] eqn:ES;
      try (inversion Ihe; fail).
    + exists (RCode (-1)), m, s, A. split; [reflexivity|]. split; [reflexivity|exact I0].
    + inversion Ihe as [|? ? ? ? Ea Ihe']; subst.
      destruct (free_spec _ _ _ Ea) as (h' & Ef & Eu & F). rewrite Ef; cbn [bind].
      assert (Hnh : ~ In a held) by (inversion Ih; auto).
      do 3 eexists. exists A. split; [reflexivity|]. split; [reflexivity|].
      constructor; cbn [m_heap m_lists m_held s_lists s_held]; auto.
      * intros j l2 E2. eapply rep_frame; [apply Ir; exact E2|].
        intros x Hx. apply F. intros ->. eapply Idh; [exact Hx|]. left; auto.
      * inversion Ih; auto.
      * intros j x H1 H2. eapply Idh; [exact H1|]. right; auto.
      * eapply Forall2_frame; [exact Ihe'|]. intros x Hx. apply F. congruence.
      * intros x. split.
        -- intros (n9 & En). destruct (Nat.eq_dec x a) as [->|Hx]; [congruence|].
           rewrite F in En by auto.
           destruct (proj1 (Ilv x)) as [H|[H|H]]; [unfold is_live; eauto|auto|congruence|auto].
        -- intros H. destruct (Nat.eq_dec x a) as [->|Hx].
           { destruct H as [(j & Hj)|H]; [|contradiction]. exfalso. eapply Idh; [exact Hj|]. left; auto. }
           unfold is_live. rewrite F by auto. apply Ilv. destruct H; [auto|right; right; auto].
  - (* append *)
    destruct Hop as (Hi & Hj & Hij).
    destruct (rd_in_range (m_lists m) i) as [l El]; [lia|]. rewrite El; cbn [bind].
    destruct (rd_in_range (m_lists m) j) as [l2 El2]; [lia|]. rewrite El2; cbn [bind].
    pose proof (Ir i l El) as R1. pose proof (Ir j l2 El2) as R2.
    assert (ND : NoDup (A i ++ A j)).
    { apply NoDup_app_intro; auto. intros x H1 H2. apply Hij. eauto. }
    destruct (append_spec (m_heap m) l l2 _ _ _ _ R1 R2 ND) as (h' & l' & Ea & R' & F & LV).
    rewrite Ea; cbn [bind]. unfold set_list, slist.
    do 3 eexists. exists (setA (setA A i (A i ++ A j)) j []).
    split; [reflexivity|]. split; [reflexivity|].
    constructor; cbn [m_heap m_lists m_held s_lists s_held].
    + now rewrite !upd_length.
    + now rewrite !upd_length.
    + intros x lx Ex. apply rd_upd in Ex; [|rewrite upd_length; lia].
      rewrite nth_upd by (rewrite upd_length; lia). unfold setA.
      destruct Ex as [[-> ->]|[Hne Ex]].
      * rewrite Nat.eqb_refl. apply rep_init.
      * destruct (Nat.eqb_spec j x); [contradiction|]. rewrite nth_upd by lia.
        apply rd_upd in Ex; [|lia]. destruct Ex as [[-> ->]|[Hne2 Ex]].
        -- rewrite Nat.eqb_refl. exact R'.
        -- destruct (Nat.eqb_spec i x); [contradiction|].
           eapply rep_frame; [apply Ir; exact Ex|]. intros a Ha. apply F. intros Hai. apply Hne2. eauto.
    + intros x Hx. unfold setA. destruct (Nat.eqb_spec j x); [lia|]. destruct (Nat.eqb_spec i x); [lia|]. auto.
    + intros x. unfold setA. destruct (Nat.eqb_spec j x); [constructor|].
      destruct (Nat.eqb_spec i x); auto.
    + intros x y a. unfold setA.
      destruct (Nat.eqb_spec j x); [intros []|]. destruct (Nat.eqb_spec j y); [intros _ []|].
      destruct (Nat.eqb_spec i x), (Nat.eqb_spec i y); subst; auto; intros H1 H2.
      * apply in_app_or in H1. destruct H1 as [H1|H1]; [eauto|].
        exfalso. assert (j = y) by eauto. congruence.
      * apply in_app_or in H2. destruct H2 as [H2|H2]; [eauto|].
        exfalso. assert (j = x) by eauto. congruence.
      * eauto.
    + auto.
    + intros x a. unfold setA. destruct (Nat.eqb_spec j x); [intros []|].
      destruct (Nat.eqb_spec i x); [|eauto]. subst. intros H1 H2.
      apply in_app_or in H1. destruct H1; eauto.
    + eapply Forall2_frame; [exact Ihe|]. intros a Ha. apply F. intros Hx. eauto.
    + intros a. rewrite LV, Ilv. unfold setA. split.
      * intros [(x & Hx)|]; [|auto]. left.
        destruct (Nat.eq_dec j x) as [<-|Hjx].
        { exists i. destruct (Nat.eqb_spec j i); [congruence|]. rewrite Nat.eqb_refl. apply in_or_app; auto. }
        destruct (Nat.eq_dec i x) as [<-|Hix].
        { exists i. destruct (Nat.eqb_spec j i); [congruence|]. rewrite Nat.eqb_refl. apply in_or_app; auto. }
        exists x. destruct (Nat.eqb_spec j x); [contradiction|]. destruct (Nat.eqb_spec i x); [contradiction|]. auto.
      * intros [(x & Hx)|]; [|auto]. left.
        destruct (Nat.eqb_spec j x); [contradiction|]. destruct (Nat.eqb_spec i x); [|eauto].
        apply in_app_or in Hx. destruct Hx; eauto.
  - (* clear *)
    destruct (rd_in_range (m_lists m) i) as [l El]; [lia|]. rewrite El; cbn [bind].
    pose proof (Ir i l El) as R.
    pose proof (addrs_bound k m s A i I0) as HB.
    destruct (clear_loop_spec (A i) (fuel_for (m_heap m)) (m_heap m) l _ R (In_ i)) as (h' & Ec & F & D).
    { unfold fuel_for. lia. }
    unfold list_clear. rewrite (rep_valid _ _ _ _ R). cbn [negb]. rewrite Ec; cbn [bind].
    unfold set_list.
    do 3 eexists. exists (setA A i []). split; [reflexivity|]. split; [reflexivity|].
    constructor; cbn [m_heap m_lists m_held s_lists s_held].
    + now rewrite upd_length.
    + now rewrite upd_length.
    + intros j l2 E2. apply rd_upd in E2; [|lia]. unfold setA. rewrite nth_upd by lia.
      destruct E2 as [[-> ->]|[Hne E2]].
      * rewrite Nat.eqb_refl. apply rep_init.
      * destruct (Nat.eqb_spec i j); [contradiction|].
        eapply rep_frame; [apply Ir; exact E2|]. intros a Ha. apply F. intros Hx. apply Hne; eauto.
    + intros j Hj. unfold setA. destruct (Nat.eqb_spec i j); [lia|]. auto.
    + intros j. unfold setA. destruct (Nat.eqb_spec i j); auto. constructor.
    + intros j1 j2 a. unfold setA.
      destruct (Nat.eqb_spec i j1), (Nat.eqb_spec i j2); subst; auto; intros H1 H2;
        try contradiction. eauto.
    + auto.
    + intros j a. unfold setA. destruct (Nat.eqb_spec i j); [contradiction|eauto].
    + eapply Forall2_frame; [exact Ihe|]. intros a Ha. apply F. intros Hx. eauto.
    + intros a. unfold setA. split.
      * intros Hl. assert (Ha : ~ In a (A i)) by (intros Hx; exact (D a Hx Hl)).
        destruct Hl as (n9 & En). rewrite F in En by auto.
        destruct (proj1 (Ilv a)) as [(j & Hj)|H]; [unfold is_live; eauto| |auto].
        left. exists j. destruct (Nat.eqb_spec i j); [subst; contradiction|auto].
      * intros H. assert (Hl : is_live (m_heap m) a /\ ~ In a (A i)).
        { destruct H as [(j & Hj)|H].
          - destruct (Nat.eqb_spec i j); [contradiction|]. split; [apply Ilv; eauto|].
            intros Hx. assert (i = j) by eauto. contradiction.
          - split; [apply Ilv; auto|]. intros Hx. eauto. }
        unfold is_live. rewrite F by tauto. tauto.
  - (* find *)
    destruct (rd_in_range (m_lists m) i) as [l El]; [lia|]. rewrite El; cbn [bind].
    pose proof (Ir i l El) as R. pose proof (addrs_bound k m s A i I0) as HB.
    unfold list_find. rewrite (rep_valid _ _ _ _ R). cbn [negb].
    destruct (find_loop_spec _ _ _ _ tag (proj1 R) (fuel_for (m_heap m))) as (q & Eq & Hq).
    { unfold fuel_for; lia. }
    rewrite Eq; cbn [bind]. unfold slist. destruct q as [a|].
    + destruct Hq as (n9 & En & ->). rewrite En; cbn [bind].
      do 3 eexists. exists A. split; [reflexivity|]. split; [reflexivity|]. exact I0.
    + rewrite Hq. do 3 eexists. exists A. split; [reflexivity|]. split; [reflexivity|]. exact I0.
  - (* duplicate *)
    destruct (rd_in_range (m_lists m) i) as [l El]; [lia|]. rewrite El; cbn [bind].
    pose proof (Ir i l El) as R. pose proof (addrs_bound k m s A i I0) as HB.
    unfold list_has_duplicate. rewrite (rep_valid _ _ _ _ R). cbn [negb].
    rewrite (dup_loop_spec _ _ _ _ (proj1 R)) by (unfold fuel_for; lia). cbn [bind].
    do 3 eexists. exists A. split; [reflexivity|]. split; [reflexivity|]. exact I0.
  - (* empty *)
    destruct (rd_in_range (m_lists m) i) as [l El]; [lia|]. rewrite El; cbn [bind].
    pose proof (Ir i l El) as R. unfold list_is_empty. rewrite (rep_valid _ _ _ _ R). cbn [negb].
    unfold slist. do 3 eexists. exists A. split; [reflexivity|]. split; [|exact I0].
    destruct R as [S _]. inversion S as [Hf HA HF|? ? ? ? ? ? Hf HA HF]; reflexivity.
Qed.

Lemma run_ok k ops : forall m s A, Inv k m s A -> Forall (op_ok k) ops ->
  exists rs m' s' A', run m ops = Ret (rs, m') /\ srun s ops = (rs, s') /\ Inv k m' s' A'.
Proof.
  induction ops as [|o ops IH]; intros m s A I H; cbn [run srun].
  - exists [], m, s, A. auto.
  - inversion H as [|? ? Ho H']; subst.
    destruct (step_ok k m s A o I Ho) as (r & m1 & s1 & A1 & E1 & E2 & I1).
    rewrite E1, E2; cbn [bind].
    destruct (IH m1 s1 A1 I1 H') as (rs & m2 & s2 & A2 & E3 & E4 & I2).
    rewrite E3, E4; cbn [bind]. exists (r :: rs), m2, s2, A2. auto.
Qed.

Lemma init_inv k : Inv k (machine_init k) (sinit k) (fun _ => []).
Proof.
  constructor; cbn [machine_init sinit m_heap m_lists m_held s_lists s_held].
  - apply repeat_length.
  - apply repeat_length.
  - intros i l E. apply rd_In in E. apply repeat_spec in E. subst l.
    replace (nth i (repeat [] k) []) with (@nil field).
    + apply rep_init.
    + destruct (nth_in_or_default i (repeat (@nil field) k) []) as [H|H]; [|auto].
      apply repeat_spec in H. auto.
  - auto.
  - constructor.
  - intros i j a [].
  - constructor.
  - intros i a [].
  - constructor.
  - intros a. split; [|intros [(i & [])|[]]]. intros (n9 & E). destruct a; discriminate E.
Qed.

(** Live nodes are exactly the nodes of the sequences and the held ones. *)
Lemma live_count (h : heap) (l : list nat) : NoDup l ->
  (forall a, is_live h a <-> In a l) -> live h = length l.
Proof.
  intros ND H.
  assert (P : length (filter (fun a => match nth_error h a with Some (Some _) => true | _ => false end)
                (seq 0 (length h))) = length l).
  { apply Nat.le_antisymm.
    - apply NoDup_incl_length; [apply NoDup_filter, seq_NoDup|].
      intros a Ha. apply filter_In in Ha. destruct Ha as [_ Ha]. apply H.
      destruct (nth_error h a) as [[n|]|] eqn:E; try discriminate. exists n. now apply load_nth.
    - apply NoDup_incl_length; auto. intros a Ha. apply H in Ha. destruct Ha as (n9 & E).
      apply filter_In. split; [apply in_seq; split; [lia|apply (load_lt _ _ _ E)]|].
      apply load_nth in E. now rewrite E. }
  rewrite <- P. clear. unfold live. induction h as [|c h IH] using rev_ind; auto.
  rewrite filter_app, app_length, app_length. cbn [length]. rewrite Nat.add_1_r, seq_S, filter_app, app_length.
  rewrite IH. f_equal.
  - f_equal. apply filter_ext_in. intros a Ha. apply in_seq in Ha. rewrite nth_error_app1 by lia. reflexivity.
  - cbn [filter Nat.add]. rewrite nth_error_app2, Nat.sub_diag by lia. cbn [nth_error].
    destruct c; reflexivity.
Qed.

Lemma NoDup_concat_seq (A : nat -> list nat) n : (forall i, NoDup (A i)) ->
  (forall i j a, In a (A i) -> In a (A j) -> i = j) ->
  NoDup (concat (map A (seq 0 n))).
Proof.
  intros H1 H2. induction n as [|n IH]; [constructor|].
  rewrite seq_S, map_app, concat_app. cbn [map concat]. rewrite app_nil_r.
  apply NoDup_app_intro; auto.
  intros x Hx Hy. apply in_concat in Hx. destruct Hx as (l & Hl & Hx).
  apply in_map_iff in Hl. destruct Hl as (i & <- & Hi). apply in_seq in Hi.
  assert (i = n) by eauto. lia.
Qed.

Lemma run_history k ops : Forall (op_ok k) ops ->
  exists rs m s, run (machine_init k) ops = Ret (rs, m) /\ srun (sinit k) ops = (rs, s) /\
    (forall i, (i < k)%nat -> exists l, rd (m_lists m) i = Ret l /\
        walk (fuel_for (m_heap m)) (m_heap m) (front l) = Ret (nth i (s_lists s) [])) /\
    live (m_heap m) = (length (concat (s_lists s)) + length (s_held s))%nat.
Proof.
  intros H. destruct (run_ok k ops _ _ _ (init_inv k) H) as (rs & m & s & A & E1 & E2 & I).
  exists rs, m, s. split; [auto|]. split; [auto|]. split.
  - intros i Hi. destruct (rd_in_range (m_lists m) i) as [l El].
    { rewrite (inv_len _ _ _ _ I). auto. }
    exists l. split; auto. eapply walk_spec; [apply (inv_rep _ _ _ _ I i l El)|].
    pose proof (addrs_bound k m s A i I). unfold fuel_for. lia.
  - rewrite (live_count _ (concat (map A (seq 0 k)) ++ m_held m)).
    + rewrite app_length. f_equal.
      * assert (G : forall n, (n <= k)%nat ->
           length (concat (map A (seq 0 n))) = length (concat (firstn n (s_lists s)))).
        { induction n as [|n IHn]; intros Hn; [reflexivity|].
          rewrite seq_S, map_app, concat_app, app_length. cbn [map concat Nat.add]. rewrite app_nil_r.
          rewrite IHn by lia.
          destruct (rd_in_range (s_lists s) n) as [fs Efs].
          { rewrite (inv_slen _ _ _ _ I). lia. }
          destruct (rd_in_range (m_lists m) n) as [l El].
          { rewrite (inv_len _ _ _ _ I). lia. }
          assert (Hfs : firstn (S n) (s_lists s) = firstn n (s_lists s) ++ [fs]).
          { rewrite <- (firstn_skipn n (s_lists s)) at 1. rewrite (skipn_rd _ _ _ Efs).
            rewrite firstn_app. rewrite firstn_firstn. rewrite Nat.min_r by lia.
            rewrite firstn_length_le by (rewrite (inv_slen _ _ _ _ I); lia).
            replace (S n - n)%nat with 1%nat by lia. reflexivity. }
          rewrite Hfs, concat_app, app_length. cbn [concat]. rewrite app_nil_r. f_equal.
          pose proof (inv_rep _ _ _ _ I n l El) as [S _]. apply seg_len in S. rewrite S.
          apply rd_Ret in Efs. rewrite (nth_error_nth _ _ [] Efs). reflexivity. }
        rewrite G by auto. rewrite firstn_all2; auto. rewrite (inv_slen _ _ _ _ I); auto.
      * pose proof (inv_held _ _ _ _ I) as F. exact (Forall2_len _ _ _ F).
    + apply NoDup_app_intro.
      * apply NoDup_concat_seq; apply I.
      * apply I.
      * intros x Hx Hy. apply in_concat in Hx. destruct Hx as (l & Hl & Hx).
        apply in_map_iff in Hl. destruct Hl as (i & <- & _). eapply (inv_dh _ _ _ _ I); eauto.
    + intros a. rewrite (inv_live _ _ _ _ I a), in_app_iff. split.
      * intros [(i & Hi)|]; [|auto]. left. apply in_concat. exists (A i). split; auto.
        apply in_map. apply in_seq. split; [lia|]. cbn.
        destruct (Nat.ltb_spec i k); [auto|]. rewrite (inv_out _ _ _ _ I) in Hi by auto. contradiction.
      * intros [Hi|]; [|auto]. left. apply in_concat in Hi. destruct Hi as (l & Hl & Hi).
        apply in_map_iff in Hl. destruct Hl as (i & <- & _). eauto.
Qed.

(** [has_dup] says that two different positions hold the same tag. *)
Lemma has_dup_spec l : has_dup l = true <->
  exists i j x, i <> j /\ nth_error l i = Some x /\ nth_error l j = Some x.
Proof.
  induction l as [|x l IH]; cbn [has_dup].
  - split; [discriminate|]. intros (i & j & y & _ & H & _). destruct i; discriminate.
  - rewrite orb_true_iff, IH, existsb_exists. split.
    + intros [(y & Hy & E)|(i & j & y & H1 & H2 & H3)].
      * apply Z.eqb_eq in E. subst y. apply In_nth_error in Hy. destruct Hy as (j & Hj).
        exists 0%nat, (S j), x. auto.
      * exists (S i), (S j), y. auto.
    + intros (i & j & y & H1 & H2 & H3). destruct i as [|i], j as [|j].
      * contradiction.
      * left. cbn in H2, H3. inversion H2; subst. exists y. split; [eapply nth_error_In; eauto|].
        apply Z.eqb_refl.
      * left. cbn in H2, H3. inversion H3; subst. exists y. split; [eapply nth_error_In; eauto|].
        apply Z.eqb_refl.
      * right. cbn in H2, H3. exists i, j, y. auto.
Qed.

(** First match in terms of positions. *)
Lemma first_with_spec tag l : match first_with tag l with
  | Some f => exists i, nth_error l i = Some f /\ f_tag f = tag /\
       forall j g, (j < i)%nat -> nth_error l j = Some g -> f_tag g <> tag
  | None => forall f, In f l -> f_tag f <> tag
  end.
Proof.
  unfold first_with. induction l as [|f l IH]; cbn [find].
  - intros f [].
  - destruct (Z.eqb_spec (f_tag f) tag) as [E|E].
    + exists 0%nat. split; [reflexivity|]. split; [auto|]. intros; lia.
    + destruct (find (fun f0 => f_tag f0 =? tag) l) as [g|].
      * destruct IH as (i & H1 & H2 & H3). exists (S i). split; [exact H1|]. split; [auto|].
        intros [|j] g' Hj Hg; [inversion Hg; congruence|]. apply (H3 j); auto. lia.
      * intros g [<-|Hg]; auto.
Qed.

(** ** Statements used by TlvListProps.v *)
Lemma history_find k ops i tag : Forall (op_ok k) ops -> (i < k)%nat ->
  exists rs m l fs r, run (machine_init k) ops = Ret (rs, m) /\
    rd (m_lists m) i = Ret l /\ walk (fuel_for (m_heap m)) (m_heap m) (front l) = Ret fs /\
    step m (OFind i tag) = Ret (RField r, m) /\
    match r with
    | Some f => exists p, nth_error fs p = Some f /\ f_tag f = tag /\
         forall q g, (q < p)%nat -> nth_error fs q = Some g -> f_tag g <> tag
    | None => forall f, In f fs -> f_tag f <> tag
    end.
Proof.
  intros H Hi. destruct (run_ok k ops _ _ _ (init_inv k) H) as (rs & m & s & A & E1 & E2 & I).
  destruct (rd_in_range (m_lists m) i) as [l El]; [rewrite (inv_len _ _ _ _ I); auto|].
  pose proof (inv_rep _ _ _ _ I i l El) as R.
  pose proof (addrs_bound k m s A i I) as HB.
  destruct (find_loop_spec _ _ _ _ tag (proj1 R) (fuel_for (m_heap m))) as (q & Eq & Hq);
    [unfold fuel_for; lia|].
  exists rs, m, l, (nth i (s_lists s) []), (first_with tag (nth i (s_lists s) [])).
  split; [exact E1|]. split; [exact El|]. split.
  { eapply walk_spec; [apply R|]. unfold fuel_for; lia. }
  split; [|apply first_with_spec].
  cbn [step]. rewrite El; cbn [bind]. unfold list_find. rewrite (rep_valid _ _ _ _ R). cbn [negb].
  rewrite Eq; cbn [bind]. destruct q as [a|].
  - destruct Hq as (n9 & En & ->). rewrite En. reflexivity.
  - rewrite Hq. reflexivity.
Qed.

Lemma history_dup k ops i : Forall (op_ok k) ops -> (i < k)%nat ->
  exists rs m l fs b, run (machine_init k) ops = Ret (rs, m) /\
    rd (m_lists m) i = Ret l /\ walk (fuel_for (m_heap m)) (m_heap m) (front l) = Ret fs /\
    step m (ODup i) = Ret (RBool b, m) /\
    (b = true <-> exists p q f g, p <> q /\ nth_error fs p = Some f /\ nth_error fs q = Some g /\
                    f_tag f = f_tag g).
Proof.
  intros H Hi. destruct (run_ok k ops _ _ _ (init_inv k) H) as (rs & m & s & A & E1 & E2 & I).
  destruct (rd_in_range (m_lists m) i) as [l El]; [rewrite (inv_len _ _ _ _ I); auto|].
  pose proof (inv_rep _ _ _ _ I i l El) as R.
  pose proof (addrs_bound k m s A i I) as HB.
  exists rs, m, l, (nth i (s_lists s) []), (has_dup (map f_tag (nth i (s_lists s) []))).
  split; [exact E1|]. split; [exact El|]. split.
  { eapply walk_spec; [apply R|]. unfold fuel_for; lia. }
  split.
  - cbn [step]. rewrite El; cbn [bind]. unfold list_has_duplicate.
    rewrite (rep_valid _ _ _ _ R). cbn [negb].
    rewrite (dup_loop_spec _ _ _ _ (proj1 R)) by (unfold fuel_for; lia). reflexivity.
  - rewrite has_dup_spec. split.
    + intros (p & q & x & H1 & H2 & H3). rewrite nth_error_map in H2, H3.
      destruct (nth_error (nth i (s_lists s) []) p) as [f|] eqn:Ep; [|discriminate].
      destruct (nth_error (nth i (s_lists s) []) q) as [g|] eqn:Eq; [|discriminate].
      exists p, q, f, g. cbn in H2, H3. repeat split; auto. congruence.
    + intros (p & q & f & g & H1 & H2 & H3 & H4). exists p, q, (f_tag f).
      rewrite !nth_error_map, H2, H3. cbn. rewrite H4. auto.
Qed.

Lemma run_app m ops1 ops2 :
  run m (ops1 ++ ops2) =
  let* (rs1, m1) := run m ops1 in let* (rs2, m2) := run m1 ops2 in Ret (rs1 ++ rs2, m2).
Proof.
  revert m; induction ops1 as [|o ops1 IH]; intros m; cbn [run app].
  - cbn [bind]. destruct (run m ops2) as [[rs m2]| |]; reflexivity.
  - destruct (step m o) as [[r m1]| |]; cbn [bind]; auto.
    rewrite IH. destruct (run m1 ops1) as [[rs1 m2]| |]; cbn [bind]; auto.
    destruct (run m2 ops2) as [[rs2 m3]| |]; cbn [bind]; reflexivity.
Qed.
Lemma srun_app s ops1 ops2 :
  snd (srun s (ops1 ++ ops2)) = snd (srun (snd (srun s ops1)) ops2).
Proof.
  revert s; induction ops1 as [|o ops1 IH]; intros s; cbn [srun app]; auto.
  destruct (sstep s o) as [r s1]. specialize (IH s1).
  destruct (srun s1 (ops1 ++ ops2)), (srun s1 ops1); cbn [snd] in *. exact IH.
Qed.

Lemma srun_clears s k n : length (s_lists s) = k -> (n <= k)%nat ->
  s_held (snd (srun s (map OClear (seq 0 n)))) = s_held s /\
  length (s_lists (snd (srun s (map OClear (seq 0 n))))) = k /\
  forall i, (i < n)%nat -> nth i (s_lists (snd (srun s (map OClear (seq 0 n))))) [] = [].
Proof.
  intros Hl. induction n as [|n IH]; intros Hn; [split; [|split]; auto; intros; lia|].
  destruct IH as (I1 & I2 & I3); [lia|].
  rewrite seq_S, map_app, srun_app. cbn [map Nat.add].
  set (s1 := snd (srun s (map OClear (seq 0 n)))) in *. cbn [srun sstep snd set_list s_held s_lists].
  split; auto. rewrite upd_length. split; auto.
  intros i Hi. rewrite nth_upd by lia. destruct (Nat.eqb_spec n i); auto. apply I3. lia.
Qed.
Lemma srun_frees n : forall s, length (s_held s) = n ->
  s_lists (snd (srun s (repeat OFree n))) = s_lists s /\
  s_held (snd (srun s (repeat OFree n))) = [].
Proof.
  induction n as [|n IH]; intros s Hs; cbn [repeat srun].
  - split; auto. cbn [snd]. destruct (s_held s) eqn:E; auto. discriminate.
  - cbn [sstep]. destruct (s_held s) as [|f held] eqn:E; [discriminate|].
    cbn [length] in Hs. destruct (IH (mkS (s_lists s) held)) as (H1 & H2); [cbn; lia|].
    destruct (srun (mkS (s_lists s) held) (repeat OFree n)); cbn [snd] in *. auto.
Qed.

Lemma all_empty_concat (l : list (list field)) :
  (forall i, (i < length l)%nat -> nth i l [] = []) -> concat l = [].
Proof.
  induction l as [|x l IH]; intros H; auto. cbn [concat].
  pose proof (H 0%nat) as H0. cbn in H0. rewrite H0 by lia. cbn [app].
  apply IH. intros i Hi. apply (H (S i)). cbn; lia.
Qed.

Lemma history_released k ops : Forall (op_ok k) ops ->
  exists rs m, run (machine_init k) ops = Ret (rs, m) /\
  exists rs' m', run m (map OClear (seq 0 k) ++ repeat OFree (length (m_held m))) = Ret (rs', m') /\
    live (m_heap m') = 0%nat.
Proof.
  intros H. destruct (run_ok k ops _ _ _ (init_inv k) H) as (rs & m & s & A & E1 & E2 & I).
  exists rs, m. split; auto.
  set (ops2 := map OClear (seq 0 k) ++ repeat OFree (length (m_held m))).
  assert (H2 : Forall (op_ok k) ops2).
  { apply Forall_app. split.
    - apply Forall_map, Forall_forall. intros i Hi. apply in_seq in Hi. cbn. lia.
    - apply Forall_forall. intros o Ho. apply repeat_spec in Ho. subst o. exact Logic.I. }
  destruct (run_history k (ops ++ ops2)) as (rs3 & m3 & s3 & E3 & E4 & _ & L).
  { apply Forall_app; auto. }
  rewrite run_app, E1 in E3. cbn [bind] in E3.
  destruct (run m ops2) as [[rs2 m2]| |] eqn:E5; try discriminate E3. cbn [bind] in E3.
  exists rs2, m2. split; [reflexivity|].
  assert (m2 = m3) by congruence. subst m3. rewrite L.
  assert (Es : s3 = snd (srun s ops2)).
  { pose proof (srun_app (sinit k) ops ops2) as Q. rewrite E4, E2 in Q. exact Q. }
  assert (Hh : length (m_held m) = length (s_held s)).
  { pose proof (inv_held _ _ _ _ I) as F. exact (Forall2_len _ _ _ F). }
  destruct (srun_clears s k k (inv_slen _ _ _ _ I)) as (C1 & C2 & C3); [lia|].
  subst s3. unfold ops2. rewrite srun_app.
  destruct (srun_frees (length (m_held m)) (snd (srun s (map OClear (seq 0 k)))))
    as (F1 & F2).
  { rewrite C1. auto. }
  rewrite F1, F2. rewrite all_empty_concat; [reflexivity|]. rewrite C2. exact C3.
Qed.

(** Appending a nonempty list to itself empties the list object and releases
    nothing, whatever the list. *)
Lemma append_self_loses h l addrs fs : rep h l addrs fs ->
  exists h', list_append_self h l = Ret (0, h', tlist_init) /\ length h' = length h /\
    (forall a, is_live h' a <-> is_live h a).
Proof.
  intros R. pose proof (rep_valid _ _ _ _ R) as V. unfold list_append_self. rewrite V. cbn [negb].
  destruct R as [S B]. destruct (destruct_last addrs) as [->|(l0 & b & ->)].
  - change (lastopt []) with (@None nat) in B. rewrite B. cbn [bind]. eexists. split; [reflexivity|]. split; [auto|tauto].
  - rewrite lastopt_snoc in B. rewrite B.
    destruct (seg_snoc_inv _ _ _ _ _ S) as (fs0 & fb & -> & Eb).
    rewrite Eb; cbn [bind]. unfold store. rewrite Eb; cbn [bind].
    eexists. split; [reflexivity|]. split; [apply upd_length|].
    intros a. unfold is_live. rewrite load_upd by (eapply load_lt; eauto).
    destruct (Nat.eqb_spec b a) as [<-|]; [|tauto]. split; eauto.
Qed.

Lemma history_append_self k ops i : Forall (op_ok k) ops -> (i < k)%nat ->
  exists rs m l, run (machine_init k) ops = Ret (rs, m) /\ rd (m_lists m) i = Ret l /\
    exists h', list_append_self (m_heap m) l = Ret (0, h', tlist_init) /\
      live h' = live (m_heap m).
Proof.
  intros H Hi. destruct (run_ok k ops _ _ _ (init_inv k) H) as (rs & m & s & A & E1 & E2 & I).
  destruct (rd_in_range (m_lists m) i) as [l El]; [rewrite (inv_len _ _ _ _ I); auto|].
  exists rs, m, l. split; auto. split; auto.
  destruct (append_self_loses _ _ _ _ (inv_rep _ _ _ _ I i l El)) as (h' & E & HL & HV).
  exists h'. split; auto.
  assert (P : forall h, live h = length (filter (fun a => match nth_error h a with Some (Some _) => true | _ => false end)
                (seq 0 (length h)))).
  { clear. intros h. set (L := filter _ _). apply live_count; [apply NoDup_filter, seq_NoDup|].
    intros a. subst L. rewrite filter_In, in_seq. split.
    - intros (n9 & En). pose proof (load_lt _ _ _ En). apply load_nth in En. rewrite En. split; auto; lia.
    - intros [_ Ha]. destruct (nth_error h a) as [[n9|]|] eqn:En; try discriminate. exists n9. now apply load_nth. }
  rewrite (P (m_heap m)). apply live_count; [apply NoDup_filter, seq_NoDup|].
  intros a. rewrite HV. rewrite filter_In, in_seq. split.
  - intros (n9 & En). pose proof (load_lt _ _ _ En). apply load_nth in En. rewrite En. split; auto; lia.
  - intros [_ Ha]. destruct (nth_error (m_heap m) a) as [[n9|]|] eqn:En; try discriminate. exists n9. now apply load_nth.
Qed.
