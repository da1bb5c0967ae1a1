(** Lemmas about src/isocodes_lookup.cpp and src/mcc_lookup.cpp. *)
From Coq Require Import String.
From Verif Require Import Base BaseLemmas StrModel ToolsModel DecodeModel LookupModel LookupSpec.
Open Scope string_scope.
Open Scope Z_scope.
Open Scope list_scope.
Notation length := List.length.

(** ** Texts *)
Lemma eqs_eq a : forall b, eqs a b = true <-> a = b.
Proof.
  induction a as [|x a IH]; intros [|y b]; cbn [eqs]; try (split; [discriminate|intro; discriminate]); [tauto|].
  rewrite andb_true_iff, Z.eqb_eq, IH. split; [intros [-> ->]; reflexivity|intros [= -> ->]; tauto].
Qed.
Lemma eqs_refl a : eqs a a = true.
Proof. now apply eqs_eq. Qed.
Lemma eqs_neq a b : a <> b -> eqs a b = false.
Proof. intro H. destruct (eqs a b) eqn:E; [|reflexivity]. apply eqs_eq in E. contradiction. Qed.

Lemma c_str_spec s : before_nul s (c_str s).
Proof.
  induction s as [|c s [[E N]|[r [E N]]]]; cbn [c_str].
  - left. split; [reflexivity|easy].
  - destruct (Z.eqb_spec c 0) as [->|H0].
    + right. exists s. split; [reflexivity|easy].
    + left. rewrite <- E. split; [congruence|]. cbn [In]. intros [->|H1]; [now apply H0|]. apply N. congruence.
  - destruct (Z.eqb_spec c 0) as [->|H0].
    + right. exists s. split; [reflexivity|easy].
    + right. exists r. split; [cbn [app]; congruence|]. cbn [In]. intros [->|H1]; [now apply H0|now apply N].
Qed.
Lemma c_str_nonul s : ~ In 0 s -> c_str s = s.
Proof.
  induction s as [|c s IH]; intro N; [reflexivity|]. cbn [c_str In] in *.
  destruct (Z.eqb_spec c 0) as [->|H0]; [exfalso; tauto|]. rewrite IH; tauto.
Qed.
Lemma c_str_cut t r : ~ In 0 t -> c_str (t ++ 0 :: r) = t.
Proof.
  induction t as [|c t IH]; intro N; [reflexivity|]. cbn [c_str In app] in *.
  destruct (Z.eqb_spec c 0) as [->|H0]; [exfalso; tauto|]. rewrite IH; tauto.
Qed.
Lemma before_nul_det s t : before_nul s t -> c_str s = t.
Proof. intros [[-> N]|[r [-> N]]]; [now apply c_str_nonul|now apply c_str_cut]. Qed.

(** ** Objects *)
Lemma member_has f k v : member (lit k) f = Some v <-> has f k v.
Proof.
  split.
  - induction f as [|[k' w] f IH]; cbn [member]; [discriminate|]. destruct (eqs (lit k) k') eqn:E.
    + apply eqs_eq in E. subst k'. intros [= ->]. exists [], f. split; [reflexivity|easy].
    + intro M. destruct (IH M) as [pre [post [-> N]]]. exists ((k', w) :: pre), post. split; [reflexivity|].
      cbn [map fst In]. intros [H1|H1]; [|now apply N]. subst k'. now rewrite eqs_refl in E.
  - intros [pre [post [-> N]]]. induction pre as [|[k' w] pre IH]; cbn [app member].
    + now rewrite eqs_refl.
    + cbn [map fst In] in N. rewrite eqs_neq by (intro H1; apply N; left; congruence). apply IH. tauto.
Qed.
Lemma member_none f k : member (lit k) f = None <-> ~ In (lit k) (map fst f).
Proof.
  induction f as [|[k' w] f IH]; cbn [member map fst In]; [tauto|]. destruct (eqs (lit k) k') eqn:E.
  - apply eqs_eq in E. split; [discriminate|]. intro H. exfalso. apply H. left. congruence.
  - rewrite IH. split; [|tauto]. intros H [H1|H1]; [|now apply H]. subst k'. now rewrite eqs_refl in E.
Qed.
Lemma get_some f k v : get (lit k) (JObj f) = Some v <-> has f k v /\ v <> JNull.
Proof.
  unfold get. rewrite <- member_has. destruct (member (lit k) f) as [w|]; [|split; [discriminate|intros [? _]; discriminate]].
  destruct w; split; try discriminate; try (intros [= <-]; split; [reflexivity|discriminate]);
    try (intros [[= <-] N]; [reflexivity || (exfalso; now apply N)]).
Qed.
Lemma get_none f k : get (lit k) (JObj f) = None <-> lacks f k.
Proof.
  unfold get, lacks. rewrite <- member_has, <- member_none. destruct (member (lit k) f) as [w|]; [|tauto].
  destruct w; split; try discriminate; try tauto; intros [H|H]; discriminate.
Qed.
Lemma text_iff l v t : text l v t <-> v <> JNull /\ get_string l v = t.
Proof.
  unfold text, get_string. split; intros [N H]; split; try assumption; [now apply before_nul_det|]. subst t. apply c_str_spec.
Qed.
Lemma has_text_iff l f k t : has_text l f k t <-> exists v, get (lit k) (JObj f) = Some v /\ get_string l v = t.
Proof.
  unfold has_text. split; intros [v H]; exists v.
  - rewrite text_iff in H. rewrite get_some. tauto.
  - rewrite get_some in H. rewrite text_iff. tauto.
Qed.

(** ** The visit of an array *)
Section Fill.
  Context {T : Type} (append : json -> T -> option T).
  Definition text_first (f : list (list Z * json)) : bool :=
    match f with [] => true | (_, JStr _) :: _ => true | _ => false end.
  Fixpoint fill_loop (a : list json) (s : T) : bool * T :=
    match a with
    | [] => (true, s)
    | JObj f :: t =>
      match append (JObj f) s with
      | None => (false, s)
      | Some s => if text_first f then fill_loop t s else (false, s)
      end
    | _ :: t => (false, s)
    end.
  Lemma visit_fill a s : json_c_visit (array_visit append) (JArr a) s = fill_loop a s.
  Proof.
    unfold json_c_visit. cbn [visit].
    change (array_visit append (JArr a) false false None None s) with (Continue, s). cbv iota beta zeta.
    set (go := fix go (l : list json) (i : nat) (s : T) {struct l} : vret * T := _).
    assert (G : forall a i s, match go a i s with
        | (Continue, s1) => fill_loop a s = (true, s1) | (Error, s1) => fill_loop a s = (false, s1) | _ => False end).
    { clear a s. induction a as [|j a IH]; intros i s; [reflexivity|]. cbn [go fill_loop]. fold go.
      destruct j as [|b|n|n|t|l|f]; try reflexivity. cbn [visit array_visit].
      destruct (append (JObj f) s) as [s1|]; [|reflexivity]. cbv iota beta zeta.
      destruct f as [|[k c] f].
      - cbn [text_first]. apply (IH (S i) s1).
      - destruct c; try reflexivity. cbn [visit array_visit text_first]. apply (IH (S i) s1). }
    specialize (G a O s). destruct (go a O s) as [[] s1]; try contradiction; rewrite G; reflexivity.
  Qed.
End Fill.

(** ** Vectors *)
Definition pushes (es : list entry) (v : vec) : vec := fold_left (fun v e => push_back e v) es v.
Lemma pushes_items es : forall v, v_items (pushes es v) = v_items v ++ es.
Proof.
  induction es as [|e es IH]; intro v; cbn [pushes fold_left]; [now rewrite app_nil_r|].
  change (fold_left (fun v0 e0 => push_back e0 v0) es (push_back e v)) with (pushes es (push_back e v)).
  rewrite IH. unfold push_back. destruct (_ <? _)%nat; cbn [v_items]; now rewrite <- app_assoc.
Qed.
Lemma pushes_room es : forall v, (length (v_items v) + length es <= v_cap v)%nat ->
  v_gen (pushes es v) = v_gen v /\ v_cap (pushes es v) = v_cap v.
Proof.
  induction es as [|e es IH]; intros v R; [tauto|]. cbn [List.length] in R.
  change (pushes (e :: es) v) with (pushes es (push_back e v)).
  assert (P : push_back e v = mkVec (v_items v ++ [e]) (v_cap v) (v_gen v)).
  { unfold push_back. destruct (Nat.ltb_spec (length (v_items v)) (v_cap v)); [reflexivity|lia]. }
  rewrite P. apply (IH (mkVec (v_items v ++ [e]) (v_cap v) (v_gen v))). cbn [v_items v_cap]. rewrite app_length. cbn [List.length]. lia.
Qed.
Lemma pushes_gen es : forall v, (v_gen v <= v_gen (pushes es v))%nat.
Proof.
  induction es as [|e es IH]; intro v; [reflexivity|].
  change (pushes (e :: es) v) with (pushes es (push_back e v)). specialize (IH (push_back e v)).
  assert (v_gen v <= v_gen (push_back e v))%nat; [|lia]. unfold push_back. destruct (_ <? _)%nat; cbn [v_gen]; lia.
Qed.
Lemma pushes_full e es v : (v_cap v <= length (v_items v))%nat -> (v_gen v < v_gen (pushes (e :: es) v))%nat.
Proof.
  intro F. change (pushes (e :: es) v) with (pushes es (push_back e v)). pose proof (pushes_gen es (push_back e v)) as G.
  assert (v_gen v < v_gen (push_back e v))%nat; [|lia]. unfold push_back.
  destruct (Nat.ltb_spec (length (v_items v)) (v_cap v)); cbn [v_gen]; lia.
Qed.

(** ** Records *)
Section Records.
  Context {T E : Type}.
  Variables (act : E -> T -> T) (append : json -> T -> option T) (fields : list (list Z * json) -> E -> Prop).
  Definition all_of (es : list E) (v : T) : T := fold_left (fun v e => act e v) es v.
  Definition rec (j : json) (e : E) : Prop := exists f, object j f /\ fields f e.
  Hypothesis A : forall f v v', append (JObj f) v = Some v' <-> exists e, fields f e /\ v' = act e v.
  Hypothesis N : forall e, ~ fields [] e.
  Lemma fill_records a : forall v b v', fill_loop append a v = (b, v') ->
    exists a1 es, (exists a2, a = a1 ++ a2) /\ Forall2 rec a1 es /\
      (if b then a1 = a /\ v' = all_of es v
       else a1 <> a /\ (v' = all_of es v \/ exists e, v' = all_of (es ++ [e]) v)).
  Proof.
    induction a as [|j a IH]; intros v b v'; cbn [fill_loop].
    - intros [= <- <-]. exists [], []. split; [now exists []|]. split; [constructor|]. split; reflexivity.
    - assert (Bad : (b, v') = (false, v) -> exists a1 es, (exists a2, j :: a = a1 ++ a2) /\ Forall2 rec a1 es /\
          (if b then a1 = j :: a /\ v' = all_of es v
           else a1 <> j :: a /\ (v' = all_of es v \/ exists e, v' = all_of (es ++ [e]) v))).
      { intros [= -> ->]. exists [], []. split; [now exists (j :: a)|]. split; [constructor|]. split; [discriminate|]. now left. }
      destruct j as [|b0|n|n|t|l|f]; try (intro H; apply Bad; congruence).
      destruct (append (JObj f) v) as [v1|] eqn:Ea; [|intro H; apply Bad; congruence]. clear Bad.
      apply A in Ea. destruct Ea as [e [F ->]]. destruct (text_first f) eqn:Ef.
      + intro H. destruct (IH _ _ _ H) as [a1 [es [[a2 ->] [R C]]]]. exists (JObj f :: a1), (e :: es).
        split; [exists a2; reflexivity|]. split.
        * constructor; [|assumption]. exists f. split; [|assumption]. split; [reflexivity|].
          destruct f as [|[k [| | | |s| |]] f]; try discriminate; [exfalso; now apply (N e)|]. now exists k, s, f.
        * destruct b; [destruct C as [C ->]; split; [congruence|reflexivity]|].
          destruct C as [C D]. split; [congruence|]. destruct D as [->|[e1 ->]]; [now left|right; now exists e1].
      + intros [= <- <-]. exists [], []. split; [now exists (JObj f :: a)|]. split; [constructor|]. split; [discriminate|].
        right. now exists e.
  Qed.
  Lemma fill_complete a es : Forall2 rec a es -> forall v, fill_loop append a v = (true, all_of es v).
  Proof.
    induction 1 as [|j e a es [f [[-> [k [s [t ->]]]] F]] R IH]; intro v; [reflexivity|]. cbn [fill_loop text_first].
    rewrite (proj2 (A _ v (act e v))) by eauto. apply IH.
  Qed.
End Records.
Lemma rec_length {E} (R : json -> E -> Prop) a es : Forall2 R a es -> length a = length es.
Proof. induction 1; cbn [List.length]; congruence. Qed.

Definition country_fields l f e := has_text l f "name" (e_name e) /\ has_text l f "alpha_2" (e_alpha2 e) /\
  has_text l f "alpha_3" (e_alpha3 e) /\ has_text l f "numeric" (e_numeric e).
Definition currency_fields l f e := has_text l f "name" (e_name e) /\ has_text l f "alpha_3" (e_alpha3 e) /\
  has_text l f "numeric" (e_numeric e) /\ e_alpha2 e = [].
Definition language_fields l f e := has_text l f "name" (e_name e) /\ has_text l f "alpha_3" (e_alpha3 e) /\
  (has_text l f "alpha_2" (e_alpha2 e) \/ lacks f "alpha_2" /\ e_alpha2 e = []) /\ e_numeric e = [].
Lemma no_text l k t : ~ has_text l [] k t.
Proof. intros [v [[pre [post [E _]]] _]]. destruct pre; discriminate. Qed.
Lemma country_append_iff l f v v' :
  country_append l (JObj f) v = Some v' <-> exists e, country_fields l f e /\ v' = push_back e v.
Proof.
  unfold country_append, country_fields. split.
  - destruct (get (lit "name") (JObj f)) as [n|] eqn:E1; [|discriminate].
    destruct (get (lit "alpha_2") (JObj f)) as [a2|] eqn:E2; [|discriminate].
    destruct (get (lit "alpha_3") (JObj f)) as [a3|] eqn:E3; [|discriminate].
    destruct (get (lit "numeric") (JObj f)) as [m|] eqn:E4; [|discriminate]. intro H.
    exists (mkEntry (get_string l n) (get_string l a2) (get_string l a3) (get_string l m)). cbn [e_name e_alpha2 e_alpha3 e_numeric].
    split; [|congruence]. rewrite !has_text_iff. repeat split; eauto.
  - intros [[n a2 a3 m] [F ->]]. cbn [e_name e_alpha2 e_alpha3 e_numeric] in F. rewrite !has_text_iff in F.
    destruct F as [[v1 [-> <-]] [[v2 [-> <-]] [[v3 [-> <-]] [v4 [-> <-]]]]]. reflexivity.
Qed.
Lemma currency_append_iff l f v v' :
  currency_append l (JObj f) v = Some v' <-> exists e, currency_fields l f e /\ v' = push_back e v.
Proof.
  unfold currency_append, currency_fields. split.
  - destruct (get (lit "name") (JObj f)) as [n|] eqn:E1; [|discriminate].
    destruct (get (lit "alpha_3") (JObj f)) as [a3|] eqn:E3; [|discriminate].
    destruct (get (lit "numeric") (JObj f)) as [m|] eqn:E4; [|discriminate]. intro H.
    exists (mkEntry (get_string l n) [] (get_string l a3) (get_string l m)). cbn [e_name e_alpha2 e_alpha3 e_numeric].
    split; [|congruence]. rewrite !has_text_iff. repeat split; eauto.
  - intros [[n a2 a3 m] [F ->]]. cbn [e_name e_alpha2 e_alpha3 e_numeric] in F. rewrite !has_text_iff in F.
    destruct F as [[v1 [-> <-]] [[v3 [-> <-]] [[v4 [-> <-]] ->]]]. reflexivity.
Qed.
Lemma language_append_iff l f v v' :
  language_append l (JObj f) v = Some v' <-> exists e, language_fields l f e /\ v' = push_back e v.
Proof.
  unfold language_append, language_fields. split.
  - destruct (get (lit "name") (JObj f)) as [n|] eqn:E1; [|discriminate].
    destruct (get (lit "alpha_3") (JObj f)) as [a3|] eqn:E3; [|discriminate]. intro H.
    destruct (get (lit "alpha_2") (JObj f)) as [a2|] eqn:E2.
    + exists (mkEntry (get_string l n) (get_string l a2) (get_string l a3) []). cbn [e_name e_alpha2 e_alpha3 e_numeric].
      split; [|congruence]. rewrite !has_text_iff. repeat split; eauto.
    + exists (mkEntry (get_string l n) [] (get_string l a3) []). cbn [e_name e_alpha2 e_alpha3 e_numeric].
      split; [|congruence]. rewrite !has_text_iff. split; [eauto|]. split; [eauto|]. split; [|reflexivity]. right.
      split; [now apply get_none|reflexivity].
  - intros [[n a2 a3 m] [F ->]]. cbn [e_name e_alpha2 e_alpha3 e_numeric] in F. rewrite !has_text_iff, <- get_none in F.
    destruct F as [[v1 [-> <-]] [[v3 [-> <-]] [[[v4 [-> <-]]|[-> ->]] ->]]]; reflexivity.
Qed.

(** ** Maps *)
Section Index.
  Context {K : Type} (eqk : K -> K -> bool) (key : entry -> option (option K)).
  Hypothesis Ek : forall a b, eqk a b = true <-> a = b.
  Lemma eqk_refl a : eqk a a = true.
  Proof. now apply Ek. Qed.
  Lemma eqk_false a b : a <> b -> eqk a b = false.
  Proof. intro H. destruct (eqk a b) eqn:E; [|reflexivity]. apply Ek in E. contradiction. Qed.
  Lemma find_app {V} k (m1 m2 : list (K * V)) :
    find eqk k (m1 ++ m2) = match find eqk k m1 with Some v => Some v | None => find eqk k m2 end.
  Proof. induction m1 as [|[k' v] m1 IH]; [reflexivity|]. cbn [app find]. destruct (eqk k k'); [reflexivity|apply IH]. Qed.
  Lemma find_emplace {V} k k' (v : V) m :
    find eqk k (emplace eqk k' v m) = match find eqk k m with Some w => Some w | None => if eqk k k' then Some v else None end.
  Proof.
    unfold emplace. destruct (find eqk k' m) as [w|] eqn:E.
    - destruct (find eqk k m) as [x|] eqn:E1; [reflexivity|]. destruct (eqk k k') eqn:E2; [|reflexivity].
      apply Ek in E2. congruence.
    - rewrite find_app. reflexivity.
  Qed.
  (** The position of the first entry with key [k]. *)
  Fixpoint place (k : K) (es : list entry) : option nat :=
    match es with
    | [] => None
    | e :: t => match key e with
                | Some (Some k') => if eqk k k' then Some O else option_map S (place k t)
                | _ => option_map S (place k t)
                end
    end.
  Lemma index_find g es : forall i m m', index eqk key g i es m = Some m' ->
    forall k, find eqk k m' = match find eqk k m with
                              | Some r => Some r
                              | None => option_map (fun j => (g, (i + j)%nat)) (place k es)
                              end.
  Proof.
    induction es as [|e es IH]; intros i m m'; cbn [index place].
    - intros [= <-] k. now destruct (find eqk k m).
    - destruct (key e) as [[k'|]|] eqn:E; [| |discriminate].
      + intros H k. rewrite (IH _ _ _ H), find_emplace. destruct (find eqk k m); [reflexivity|].
        destruct (eqk k k'); [cbn [option_map]; now rewrite Nat.add_0_r|]. destruct (place k es) as [j|]; cbn [option_map]; [|reflexivity].
        now rewrite Nat.add_succ_r.
      + intros H k. rewrite (IH _ _ _ H). destruct (find eqk k m); [reflexivity|]. destruct (place k es) as [j|]; cbn [option_map]; [|reflexivity].
        now rewrite Nat.add_succ_r.
  Qed.
  Lemma index_keys g es : forall i m m', index eqk key g i es m = Some m' -> forall e, In e es -> key e <> None.
  Proof.
    induction es as [|e es IH]; intros i m m' H x I; [easy|]. cbn [index] in H. destruct I as [->|I].
    - intro E. rewrite E in H. discriminate.
    - destruct (key e) as [[k'|]|]; [| |discriminate]; eapply IH; eassumption.
  Qed.
  Lemma index_total g es : forall i m, (forall e, In e es -> key e <> None) -> exists m', index eqk key g i es m = Some m'.
  Proof.
    induction es as [|e es IH]; intros i m H; cbn [index]; [eauto|].
    assert (T : forall x, In x es -> key x <> None) by (intros x I; apply H; now right).
    pose proof (H e (or_introl eq_refl)) as H1. destruct (key e) as [[k'|]|]; [| |contradiction]; now apply IH.
  Qed.
  Lemma place_first es k : match place k es with
    | Some j => exists e, nth_error es j = Some e /\ first_name es (fun e => key e = Some (Some k)) (Some (e_name e))
    | None => first_name es (fun e => key e = Some (Some k)) None
    end.
  Proof.
    induction es as [|e es IH]; [cbn; tauto|]. cbn [place].
    assert (Step : key e <> Some (Some k) -> match option_map S (place k es) with
       | Some j => exists e0, nth_error (e :: es) j = Some e0 /\ first_name (e :: es) (fun e => key e = Some (Some k)) (Some (e_name e0))
       | None => first_name (e :: es) (fun e => key e = Some (Some k)) None end).
    { intro Nk. destruct (place k es) as [j|]; cbn [option_map nth_error].
      - destruct IH as [e0 [E0 [pre [e1 [post [-> [En [Kk Np]]]]]]]]. exists e0. split; [exact E0|].
        exists (e :: pre), e1, post. split; [reflexivity|]. split; [exact En|]. split; [exact Kk|].
        intros x [<-|I]; [exact Nk|now apply Np].
      - intros x [<-|I]; [exact Nk|now apply IH]. }
    destruct (key e) as [[k'|]|] eqn:E; try (apply Step; discriminate).
    destruct (eqk k k') eqn:E2; [|apply Step; intros [= ->]; rewrite eqk_refl in E2; discriminate].
    apply Ek in E2. subst k'. exists e. split; [reflexivity|]. exists [], e, es. split; [reflexivity|].
    split; [reflexivity|]. split; [exact E|easy].
  Qed.
  (** A lookup in a map that was empty. *)
  Lemma looked_fresh v m : index_all eqk key v [] = Some m ->
    forall q, exists r, looked eqk q m v = Ret r /\ first_name (v_items v) (fun e => key e = Some (Some q)) r.
  Proof.
    intros H q. unfold looked. rewrite (index_find _ _ _ _ _ H). cbn [find].
    pose proof (place_first (v_items v) q) as P. destruct (place q (v_items v)) as [j|]; cbn [option_map].
    - destruct P as [e [E F]]. exists (Some (e_name e)). split; [|exact F]. unfold deref. cbn [fst snd]. rewrite Nat.eqb_refl.
      unfold rd. cbn [Nat.add]. rewrite E. reflexivity.
    - exists None. split; [reflexivity|exact P].
  Qed.
  (** A lookup of what an old map of other storage has. *)
  Lemma looked_stale v m m' q g j : index_all eqk key v m = Some m' -> find eqk q m = Some (g, j) -> g <> v_gen v ->
    looked eqk q m' v = UB.
  Proof.
    intros H F G. unfold looked. rewrite (index_find _ _ _ _ _ H), F. unfold deref. cbn [fst].
    destruct (Nat.eqb_spec g (v_gen v)); [contradiction|reflexivity].
  Qed.
  Lemma looked_known v m q n : index_all eqk key v [] = Some m -> looked eqk q m v = Ret (Some n) ->
    exists j, find eqk q m = Some (v_gen v, j).
  Proof.
    intros H L. unfold looked in L. rewrite (index_find _ _ _ _ _ H) in *. cbn [find] in *.
    destruct (place q (v_items v)) as [j|]; cbn [option_map] in *; [eauto|discriminate].
  Qed.
End Index.
Lemma first_name_iff es (P Q : entry -> Prop) r : (forall e, P e <-> Q e) -> first_name es P r -> first_name es Q r.
Proof.
  intros E. destruct r as [n|]; cbn [first_name].
  - intros [pre [e [post [-> [En [Pe Np]]]]]]. exists pre, e, post. split; [reflexivity|]. split; [exact En|].
    split; [now apply E|]. intros x I. rewrite <- E. now apply Np.
  - intros H e I. rewrite <- E. now apply H.
Qed.

(** ** Numbers *)
Lemma is_digit_iff c : is_digit c = true <-> digit c.
Proof. unfold is_digit, digit. lia. Qed.
Lemma is_space_iff c : is_space c = true <-> space c.
Proof. unfold is_space, space. lia. Qed.
Lemma skip_space_app sp t : Forall space sp -> skip_space (sp ++ t) = skip_space t.
Proof. induction 1 as [|c sp Hc _ IH]; [reflexivity|]. cbn [app skip_space]. apply is_space_iff in Hc. now rewrite Hc. Qed.
Lemma skip_space_split s : exists sp, s = sp ++ skip_space s /\ Forall space sp.
Proof.
  induction s as [|c s [sp [E F]]]; [now exists []|]. cbn [skip_space]. destruct (is_space c) eqn:Ec.
  - exists (c :: sp). split; [cbn [app]; congruence|]. constructor; [now apply is_space_iff|assumption].
  - exists []. split; [reflexivity|constructor].
Qed.
Lemma digits_app ds rest : Forall digit ds -> (rest = [] \/ exists c t, rest = c :: t /\ ~ digit c) ->
  forall v, digits_from (ds ++ rest) v = fold_left (fun v d => v * 10 + (d - 0x30)) ds v.
Proof.
  intros F R. induction F as [|c ds Hc _ IH]; intro v.
  - cbn [app fold_left]. destruct R as [->|[c [t [-> Nd]]]]; [reflexivity|]. cbn [digits_from].
    destruct (is_digit c) eqn:E; [apply is_digit_iff in E; contradiction|reflexivity].
  - cbn [app digits_from fold_left]. apply is_digit_iff in Hc. rewrite Hc. apply IH.
Qed.
Lemma digits_split s : exists ds rest, s = ds ++ rest /\ Forall digit ds /\ (rest = [] \/ exists c t, rest = c :: t /\ ~ digit c).
Proof.
  induction s as [|c s [ds [rest [E [F R]]]]].
  - exists [], []. split; [reflexivity|]. split; [constructor|now left].
  - destruct (is_digit c) eqn:Ec.
    + exists (c :: ds), rest. split; [cbn [app]; congruence|]. split; [|exact R]. constructor; [now apply is_digit_iff|exact F].
    + exists [], (c :: s). split; [reflexivity|]. split; [constructor|]. right. exists c, s. split; [reflexivity|].
      intro D. apply is_digit_iff in D. congruence.
Qed.
Lemma decimal_iff s neg n : decimal s = Some (neg, n) <-> numeral s neg n.
Proof.
  unfold decimal, numeral. split.
  - destruct (skip_space_split s) as [sp [E Fs]]. destruct (signed (skip_space s)) as [b t] eqn:Es.
    assert (G : exists sg, skip_space s = sg ++ t /\ (b = true /\ sg = [0x2D] \/ b = false /\ (sg = [] \/ sg = [0x2B]))).
    { revert Es. unfold signed. destruct (skip_space s) as [|c u]; [intros [= <- <-]; exists []; tauto|].
      destruct (Z.eqb_spec c 0x2D) as [->|H1]; [intros [= <- <-]; exists [0x2D]; tauto|].
      destruct (Z.eqb_spec c 0x2B) as [->|H2]; intros [= <- <-]; [exists [0x2B]|exists []]; tauto. }
    destruct G as [sg [E2 G]]. destruct t as [|c t]; [discriminate|]. destruct (is_digit c) eqn:Ec; [|discriminate].
    intro H. assert (b = neg) by congruence. assert (digits_from (c :: t) 0 = n) by congruence. subst b n. clear H.
    destruct (digits_split (c :: t)) as [ds [rest [E3 [Fd R]]]]. exists sp, sg, ds, rest.
    split; [rewrite <- E3, <- E2; exact E|]. split; [exact Fs|]. split; [exact G|].
    split; [|split; [exact Fd|split; [exact R|]]].
    + intros ->. cbn [app] in E3. destruct R as [->|[c1 [t1 [-> Nd]]]]; [discriminate|]. apply Nd. apply is_digit_iff. congruence.
    + rewrite E3. now apply digits_app.
  - intros [sp [sg [ds [rest [-> [Fs [G [Nd [Fd [R ->]]]]]]]]]]. rewrite skip_space_app by assumption.
    destruct ds as [|d ds]; [contradiction|]. assert (Dd : digit d) by now inversion Fd.
    assert (Hd : is_digit d = true) by now apply is_digit_iff. unfold digit in Dd.
    assert (V : digits_from ((d :: ds) ++ rest) 0 = value (d :: ds)) by now apply digits_app.
    destruct G as [[-> ->]|[-> [-> | ->]]].
    + change (skip_space ([0x2D] ++ (d :: ds) ++ rest)) with ([0x2D] ++ (d :: ds) ++ rest). cbn [app signed Z.eqb Pos.eqb].
      change (0x2D =? 0x2D) with true. cbv iota. rewrite Hd. cbn [app] in V. now rewrite V.
    + cbn [app skip_space]. assert (Sd : is_space d = false) by (unfold is_space; lia). rewrite Sd. unfold signed.
      destruct (Z.eqb_spec d 0x2D); [lia|]. destruct (Z.eqb_spec d 0x2B); [lia|]. rewrite Hd. cbn [app] in V. now rewrite V.
    + change (skip_space ([0x2B] ++ (d :: ds) ++ rest)) with ([0x2B] ++ (d :: ds) ++ rest). cbn [app signed].
      change (0x2B =? 0x2D) with false. change (0x2B =? 0x2B) with true. cbv iota. rewrite Hd. cbn [app] in V. now rewrite V.
Qed.
Lemma stoul_iff s q : option_map (fun v => Some (u32 v)) (stoul s) = Some (Some q) <-> number s q.
Proof.
  unfold stoul, number. split.
  - destruct (decimal s) as [[neg v]|] eqn:E; [|discriminate]. apply decimal_iff in E.
    destruct (Z.ltb_spec 18446744073709551615 v) as [H|H]; [discriminate|]. cbn [option_map]. intro Q. exists neg, v.
    split; [exact E|]. split; [lia|]. assert (Q1 : u32 (if neg then u64 (- v) else v) = q) by congruence. rewrite <- Q1.
    unfold u32, u64. change (2 ^ 32) with 4294967296. destruct neg; [|reflexivity].
    symmetry. apply Znumtheory.Zmod_div_mod; [lia|lia|]. exists 4294967296. reflexivity.
  - intros [neg [v [E [L ->]]]]. apply decimal_iff in E. rewrite E.
    destruct (Z.ltb_spec 18446744073709551615 v) as [H|H]; [lia|]. cbn [option_map]. do 2 f_equal.
    unfold u32, u64. change (2 ^ 32) with 4294967296. destruct neg; [|reflexivity].
    symmetry. apply Znumtheory.Zmod_div_mod; [lia|lia|]. exists 4294967296. reflexivity.
Qed.
Lemma numeric_key_iff e q : numeric_key e = Some (Some q) <-> number (e_numeric e) q.
Proof. apply stoul_iff. Qed.
Lemma numeric_key_none e : numeric_key e <> None <-> exists q, number (e_numeric e) q.
Proof.
  split.
  - intro H. destruct (numeric_key e) as [[q|]|] eqn:E; [exists q; now apply numeric_key_iff| |contradiction].
    unfold numeric_key in E. destruct (stoul (e_numeric e)); discriminate.
  - intros [q H]. apply numeric_key_iff in H. congruence.
Qed.

(** ** Merchant category codes *)
Lemma find_assign k v q (m : list (Z * list Z)) : find Z.eqb q (assign Z.eqb k v m) = if q =? k then Some v else find Z.eqb q m.
Proof.
  induction m as [|[k' w] m IH]; cbn [assign find]; [reflexivity|]. destruct (Z.eqb_spec k k') as [->|H]; cbn [find].
  - destruct (q =? k'); reflexivity.
  - rewrite IH. destruct (Z.eqb_spec q k'); [|reflexivity]. subst k'. destruct (Z.eqb_spec q k); [congruence|reflexivity].
Qed.
Lemma to_int64_clamp n : to_int64 n = clamp n.
Proof.
  unfold to_int64, clamp, INT64_MAX. change (2 ^ 63) with 9223372036854775808.
  destruct (Z.ltb_spec 9223372036854775807 n); [lia|]. destruct (Z.ltb_spec n (- (9223372036854775807) - 1)); lia.
Qed.
Lemma get_int64_iff j n : n <> 0 -> get_int64 j = n <-> int_of j n.
Proof.
  intro N0. split.
  - destruct j as [|b|x|x|s|a|f]; cbn [get_int64]; intro H; try (exfalso; congruence).
    + subst n. constructor.
    + rewrite to_int64_clamp in H. subst n. constructor.
    + rewrite to_int64_clamp in H. subst n. constructor.
    + destruct (decimal (c_str s)) as [[neg v]|] eqn:E; [|exfalso; congruence]. rewrite to_int64_clamp in H. subst n.
      eapply int_str; [apply c_str_spec|]. now apply decimal_iff.
  - intro H. inversion H; subst; cbn [get_int64]; try rewrite to_int64_clamp; try reflexivity.
    match goal with B : before_nul _ _ |- _ => apply before_nul_det in B; rewrite B end.
    match goal with B : numeral _ _ _ |- _ => apply decimal_iff in B; rewrite B end. apply to_int64_clamp.
Qed.
Lemma int_not_null j n : int_of j n -> j <> JNull.
Proof. intros H ->. inversion H. Qed.
Definition set_mcc (p : Z * list Z) (m : list (Z * list Z)) := assign Z.eqb (fst p) (snd p) m.
Lemma mcc_add_iff l f m m' : mcc_add l (JObj f) m = Some m' <-> exists p, mcc_fields l f p /\ m' = set_mcc p m.
Proof.
  unfold mcc_add, mcc_fields, set_mcc. split.
  - destruct (get (lit "mcc") (JObj f)) as [v|] eqn:E1; [|discriminate]. destruct (Z.leb_spec (get_int64 v) 0) as [H|H]; [discriminate|].
    destruct (get (lit "edited_description") (JObj f)) as [d|] eqn:E2; [|discriminate]. intro Q.
    exists (u32 (get_int64 v), get_string l d). cbn [fst snd]. split; [|congruence]. exists v, (get_int64 v).
    apply get_some in E1. split; [tauto|]. split; [apply get_int64_iff; [lia|reflexivity]|]. split; [lia|].
    split; [reflexivity|]. rewrite has_text_iff. eauto.
  - intros [[k d] [[v [n [Hv [I [P [Ek Hd]]]]]] ->]]. cbn [fst snd] in *. assert (E1 : get (lit "mcc") (JObj f) = Some v).
    { apply get_some. split; [exact Hv|now apply (int_not_null _ n)]. }
    rewrite E1. apply get_int64_iff in I; [|lia]. rewrite I. destruct (Z.leb_spec n 0); [lia|].
    rewrite has_text_iff in Hd. destruct Hd as [w [-> <-]]. subst k. reflexivity.
Qed.
Lemma no_mcc l p : ~ mcc_fields l [] p.
Proof. intros [v [n [[pre [post [E _]]] _]]]. destruct pre; discriminate. Qed.
Lemma mcc_record_iff l j p : mcc_record l j p <-> rec (mcc_fields l) j p.
Proof. reflexivity. Qed.
Lemma set_all ps : forall m n, last_description ps (find Z.eqb n m) n (find Z.eqb n (all_of set_mcc ps m)).
Proof.
  unfold last_description. induction ps as [|[k d] ps IH]; intros m n.
  - right. split; [easy|reflexivity].
  - change (all_of set_mcc ((k, d) :: ps) m) with (all_of set_mcc ps (assign Z.eqb k d m)).
    destruct (IH (assign Z.eqb k d m) n) as [[pre [d1 [post [-> [Er N]]]]]|[N Er]].
    + left. exists ((k, d) :: pre), d1, post. split; [reflexivity|tauto].
    + rewrite find_assign in Er. destruct (Z.eqb_spec n k) as [->|H].
      * left. exists [], d, ps. split; [reflexivity|tauto].
      * right. cbn [map fst In]. split; [intros [H1|H1]; [congruence|now apply N]|exact Er].
Qed.
Lemma mcc_visit l a m b m' : json_c_visit (array_visit (mcc_add l)) (JArr a) m = (b, m') ->
  exists a1 ps, (exists a2, a = a1 ++ a2) /\ Forall2 (mcc_record l) a1 ps /\
    (forall n, exists ps1, (ps1 = ps \/ b = false /\ exists p, ps1 = ps ++ [p]) /\ last_description ps1 (find Z.eqb n m) n (find Z.eqb n m')) /\
    (if b then a1 = a else forall ps, ~ Forall2 (mcc_record l) a ps).
Proof.
  rewrite visit_fill. intro H. destruct (fill_records set_mcc _ _ (mcc_add_iff l) (no_mcc l) _ _ _ _ H) as [a1 [ps [[a2 ->] [F C]]]].
  exists a1, ps. split; [eauto|]. split.
  { clear -F. induction F; constructor; [now apply mcc_record_iff|assumption]. }
  destruct b.
  - destruct C as [C ->]. split; [|exact C]. intro n. exists ps. split; [now left|apply set_all].
  - destruct C as [_ C]. split.
    + intro n. destruct C as [->|[e ->]].
      * exists ps. split; [now left|apply set_all].
      * exists (ps ++ [e]). split; [right; eauto|apply set_all].
    + intros ps1 F1. assert (F2 : Forall2 (rec (mcc_fields l)) (a1 ++ a2) ps1).
      { clear -F1. induction F1; constructor; [now apply mcc_record_iff|assumption]. }
      rewrite (fill_complete set_mcc _ _ (mcc_add_iff l) _ _ F2) in H. discriminate.
Qed.
Lemma mcc_complete l a ps m : Forall2 (mcc_record l) a ps -> fst (json_c_visit (array_visit (mcc_add l)) (JArr a) m) = true.
Proof.
  intro F1. rewrite visit_fill. assert (F2 : Forall2 (rec (mcc_fields l)) a ps).
  { clear -F1. induction F1; constructor; [now apply mcc_record_iff|assumption]. }
  now rewrite (fill_complete set_mcc _ _ (mcc_add_iff l) _ _ F2).
Qed.
