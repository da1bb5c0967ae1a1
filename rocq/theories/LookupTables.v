(** The tables after an initialisation. *)
From Coq Require Import String.
From Verif Require Import Base BaseLemmas StrModel ToolsModel DecodeModel LookupModel LookupSpec LookupProofs.
Open Scope string_scope.
Open Scope Z_scope.
Open Scope list_scope.
Notation length := List.length.

Lemma entries_iff k root a : entries (lit k) root = Some a <-> exists f, root = JObj f /\ has f k (JArr a) /\ a <> [].
Proof.
  unfold entries. split.
  - destruct root as [| | | | | |f]; try discriminate. destruct (member (lit k) f) as [[| | | | |l|]|] eqn:E; try discriminate.
    destruct l as [|j l]; [discriminate|]. cbn [List.length Nat.eqb]. intros [= <-]. exists f. split; [reflexivity|].
    split; [now apply member_has|discriminate].
  - intros [f [-> [H N]]]. apply member_has in H. rewrite H. destruct a; [contradiction|reflexivity].
Qed.
Lemma lists_entries root k R es : lists root k R es <-> exists a, entries (lit k) root = Some a /\ Forall2 R a es.
Proof.
  unfold lists. split.
  - intros [f [a [E [H [N F]]]]]. exists a. split; [|exact F]. apply entries_iff. eauto.
  - intros [a [E F]]. apply entries_iff in E. destruct E as [f [E [H N]]]. eauto 6.
Qed.
Lemma reserve_items n v : v_items (reserve n v) = v_items v.
Proof. unfold reserve. now destruct (_ <? _)%nat. Qed.
Lemma reserve_cap n v : (n <= v_cap (reserve n v))%nat.
Proof. unfold reserve. destruct (Nat.ltb_spec (v_cap v) n); cbn [v_cap]; lia. Qed.
Lemma reserve_gen n v : (v_gen v <= v_gen (reserve n v))%nat.
Proof. unfold reserve. destruct (Nat.ltb_spec (v_cap v) n); cbn [v_gen]; lia. Qed.

Section Fill.
  Variables (append : json -> vec -> option vec) (fields : list (list Z * json) -> entry -> Prop).
  Hypothesis A : forall f v v', append (JObj f) v = Some v' <-> exists e, fields f e /\ v' = push_back e v.
  Hypothesis N : forall e, ~ fields [] e.
  Lemma filled a v b v' : fill append a v = (b, v') ->
    (b = true -> exists es, Forall2 (rec fields) a es /\ v' = pushes es (reserve (length es) v)) /\
    (b = false -> (forall es, ~ Forall2 (rec fields) a es) /\ exists es, v' = pushes es (reserve (length a) v)).
  Proof.
    unfold fill. rewrite visit_fill. intro H. split; intros ->.
    - destruct (fill_records push_back _ _ A N _ _ _ _ H) as [a1 [es [[a2 E] [F [-> ->]]]]]. exists es. split; [exact F|].
      now rewrite (rec_length _ _ _ F).
    - destruct (fill_records push_back _ _ A N _ _ _ _ H) as [a1 [es [[a2 E] [F [Nq C]]]]]. split.
      + intros es1 F1. rewrite (fill_complete push_back _ _ A _ _ F1) in H. discriminate.
      + destruct C as [->|[e ->]]; eauto.
  Qed.
  Lemma fill_all a es v : Forall2 (rec fields) a es -> fill append a v = (true, pushes es (reserve (length es) v)).
  Proof. intro F. unfold fill. rewrite visit_fill, (fill_complete push_back _ _ A _ _ F). now rewrite (rec_length _ _ _ F). Qed.
End Fill.
Lemma no_country l e : ~ country_fields l [] e.
Proof. intros [H _]. now apply no_text in H. Qed.
Lemma no_currency l e : ~ currency_fields l [] e.
Proof. intros [H _]. now apply no_text in H. Qed.
Lemma no_language l e : ~ language_fields l [] e.
Proof. intros [H _]. now apply no_text in H. Qed.

Definition numbers (es : list entry) : Prop := forall e, In e es -> exists q, number (e_numeric e) q.
Definition after (es : list entry) (v : vec) : vec := pushes es (reserve (length es) v).
Lemma after_items es v : v_items (after es v) = v_items v ++ es.
Proof. unfold after. now rewrite pushes_items, reserve_items. Qed.

(** What is false of a table after an unsuccessful build: maps changed. *)
Definition same_maps (t t' : table) : Prop := t_alpha2 t' = t_alpha2 t /\ t_alpha3 t' = t_alpha3 t /\ t_numeric t' = t_numeric t.
Definition unmapped (t : table) : Prop := t_alpha2 t = [] /\ t_alpha3 t = [] /\ t_numeric t = [].

Lemma country_true l root t t' : build_country_list l root t = Returned (true, t') ->
  exists es, lists root "3166-1" (country_record l) es /\ numbers (v_items (t_vec t) ++ es) /\ t_vec t' = after es (t_vec t) /\
    index_all eqs (fun e => Some (Some (e_alpha2 e))) (t_vec t') (t_alpha2 t) = Some (t_alpha2 t') /\
    index_all eqs (fun e => Some (Some (e_alpha3 e))) (t_vec t') (t_alpha3 t) = Some (t_alpha3 t') /\
    index_all Z.eqb numeric_key (t_vec t') (t_numeric t) = Some (t_numeric t').
Proof.
  unfold build_country_list. destruct (entries (lit "3166-1") root) as [a|] eqn:Ea; [|discriminate].
  destruct (fill (country_append l) a (t_vec t)) as [[] v] eqn:Ef; [|discriminate].
  destruct (filled _ _ (country_append_iff l) (no_country l) _ _ _ _ Ef) as [H _].
  destruct (H eq_refl) as [es [F ->]]. clear H.
  destruct (index_all eqs (fun e => Some (Some (e_alpha2 e))) _ _) as [m2|] eqn:E2; [|discriminate].
  destruct (index_all eqs (fun e => Some (Some (e_alpha3 e))) _ _) as [m3|] eqn:E3; [|discriminate].
  destruct (index_all Z.eqb _ _ _) as [mn|] eqn:En; [|discriminate]. intros [= <-]. cbn [t_vec t_alpha2 t_alpha3 t_numeric].
  exists es. split; [apply lists_entries; now exists a|]. split.
  - intros e I. apply numeric_key_none. unfold index_all in En. eapply index_keys; [exact En|]. now rewrite pushes_items, reserve_items.
  - split; [reflexivity|]. split; [exact E2|]. split; [exact E3|exact En].
Qed.
Lemma country_false l root t t' : build_country_list l root t = Returned (false, t') ->
  (forall es, ~ lists root "3166-1" (country_record l) es) /\ same_maps t t'.
Proof.
  unfold build_country_list, same_maps. destruct (entries (lit "3166-1") root) as [a|] eqn:Ea.
  - destruct (fill (country_append l) a (t_vec t)) as [[] v] eqn:Ef.
    + destruct (index_all eqs _ _ _); [|discriminate]. destruct (index_all eqs _ _ _); [|discriminate]. destruct (index_all Z.eqb _ _ _); discriminate.
    + destruct (filled _ _ (country_append_iff l) (no_country l) _ _ _ _ Ef) as [_ H]. destruct (H eq_refl) as [Nf _].
      intros [= <-]. split; [|tauto]. intros es L. apply lists_entries in L. destruct L as [a1 [E1 F1]].
      assert (a1 = a) by congruence. subst a1. now apply (Nf es).
  - intros [= <-]. split; [|tauto]. intros es L. apply lists_entries in L. destruct L as [a1 [E1 _]]. congruence.
Qed.
Lemma country_terminated l root t : build_country_list l root t = Terminated ->
  exists es, lists root "3166-1" (country_record l) es /\ ~ numbers (v_items (t_vec t) ++ es).
Proof.
  unfold build_country_list. destruct (entries (lit "3166-1") root) as [a|] eqn:Ea; [|discriminate].
  destruct (fill (country_append l) a (t_vec t)) as [[] v] eqn:Ef; [|discriminate].
  destruct (filled _ _ (country_append_iff l) (no_country l) _ _ _ _ Ef) as [H _].
  destruct (H eq_refl) as [es [F ->]]. clear H. intro T. exists es. split; [apply lists_entries; now exists a|].
  intro Nn. revert T.
  destruct (index_total eqs (fun e => Some (Some (e_alpha2 e))) (v_gen (after es (t_vec t))) (v_items (after es (t_vec t))) 0 (t_alpha2 t)) as [m2 E2]; [discriminate|].
  destruct (index_total eqs (fun e => Some (Some (e_alpha3 e))) (v_gen (after es (t_vec t))) (v_items (after es (t_vec t))) 0 (t_alpha3 t)) as [m3 E3]; [discriminate|].
  destruct (index_total Z.eqb numeric_key (v_gen (after es (t_vec t))) (v_items (after es (t_vec t))) 0 (t_numeric t)) as [mn En].
  { intros e I. apply numeric_key_none. apply Nn. now rewrite <- (after_items es). }
  unfold index_all. unfold after in *. rewrite E2, E3, En. discriminate.
Qed.

Lemma currency_true l root t t' : build_currency_list l root t = Returned (true, t') ->
  exists es, lists root "4217" (currency_record l) es /\ numbers (v_items (t_vec t) ++ es) /\ t_vec t' = after es (t_vec t) /\
    t_alpha2 t' = t_alpha2 t /\
    index_all eqs (fun e => Some (Some (e_alpha3 e))) (t_vec t') (t_alpha3 t) = Some (t_alpha3 t') /\
    index_all Z.eqb numeric_key (t_vec t') (t_numeric t) = Some (t_numeric t').
Proof.
  unfold build_currency_list. destruct (entries (lit "4217") root) as [a|] eqn:Ea; [|discriminate].
  destruct (fill (currency_append l) a (t_vec t)) as [[] v] eqn:Ef; [|discriminate].
  destruct (filled _ _ (currency_append_iff l) (no_currency l) _ _ _ _ Ef) as [H _].
  destruct (H eq_refl) as [es [F ->]]. clear H.
  destruct (index_all eqs (fun e => Some (Some (e_alpha3 e))) _ _) as [m3|] eqn:E3; [|discriminate].
  destruct (index_all Z.eqb _ _ _) as [mn|] eqn:En; [|discriminate]. intros [= <-]. cbn [t_vec t_alpha2 t_alpha3 t_numeric].
  exists es. split; [apply lists_entries; now exists a|]. split.
  - intros e I. apply numeric_key_none. unfold index_all in En. eapply index_keys; [exact En|]. now rewrite pushes_items, reserve_items.
  - split; [reflexivity|]. split; [reflexivity|]. split; [exact E3|exact En].
Qed.
Lemma currency_false l root t t' : build_currency_list l root t = Returned (false, t') ->
  (forall es, ~ lists root "4217" (currency_record l) es) /\ same_maps t t'.
Proof.
  unfold build_currency_list, same_maps. destruct (entries (lit "4217") root) as [a|] eqn:Ea.
  - destruct (fill (currency_append l) a (t_vec t)) as [[] v] eqn:Ef.
    + destruct (index_all eqs _ _ _); [|discriminate]. destruct (index_all Z.eqb _ _ _); discriminate.
    + destruct (filled _ _ (currency_append_iff l) (no_currency l) _ _ _ _ Ef) as [_ H]. destruct (H eq_refl) as [Nf _].
      intros [= <-]. split; [|tauto]. intros es L. apply lists_entries in L. destruct L as [a1 [E1 F1]].
      assert (a1 = a) by congruence. subst a1. now apply (Nf es).
  - intros [= <-]. split; [|tauto]. intros es L. apply lists_entries in L. destruct L as [a1 [E1 _]]. congruence.
Qed.
Lemma currency_terminated l root t : build_currency_list l root t = Terminated ->
  exists es, lists root "4217" (currency_record l) es /\ ~ numbers (v_items (t_vec t) ++ es).
Proof.
  unfold build_currency_list. destruct (entries (lit "4217") root) as [a|] eqn:Ea; [|discriminate].
  destruct (fill (currency_append l) a (t_vec t)) as [[] v] eqn:Ef; [|discriminate].
  destruct (filled _ _ (currency_append_iff l) (no_currency l) _ _ _ _ Ef) as [H _].
  destruct (H eq_refl) as [es [F ->]]. clear H. intro T. exists es. split; [apply lists_entries; now exists a|].
  intro Nn. revert T.
  destruct (index_total eqs (fun e => Some (Some (e_alpha3 e))) (v_gen (after es (t_vec t))) (v_items (after es (t_vec t))) 0 (t_alpha3 t)) as [m3 E3]; [discriminate|].
  destruct (index_total Z.eqb numeric_key (v_gen (after es (t_vec t))) (v_items (after es (t_vec t))) 0 (t_numeric t)) as [mn En].
  { intros e I. apply numeric_key_none. apply Nn. now rewrite <- (after_items es). }
  unfold index_all. unfold after in *. rewrite E3, En. discriminate.
Qed.

Lemma language_true l root t t' : build_language_list l root t = Returned (true, t') ->
  exists es, lists root "639-2" (language_record l) es /\ t_vec t' = after es (t_vec t) /\
    index_all eqs (fun e => Some (match e_alpha2 e with [] => None | k => Some k end)) (t_vec t') (t_alpha2 t) = Some (t_alpha2 t') /\
    index_all eqs (fun e => Some (Some (e_alpha3 e))) (t_vec t') (t_alpha3 t) = Some (t_alpha3 t') /\
    t_numeric t' = t_numeric t.
Proof.
  unfold build_language_list. destruct (entries (lit "639-2") root) as [a|] eqn:Ea; [|discriminate].
  destruct (fill (language_append l) a (t_vec t)) as [[] v] eqn:Ef; [|discriminate].
  destruct (filled _ _ (language_append_iff l) (no_language l) _ _ _ _ Ef) as [H _].
  destruct (H eq_refl) as [es [F ->]]. clear H.
  destruct (index_all eqs (fun e => Some (match e_alpha2 e with [] => None | k => Some k end)) _ _) as [m2|] eqn:E2; [|discriminate].
  destruct (index_all eqs (fun e => Some (Some (e_alpha3 e))) _ _) as [m3|] eqn:E3; [|discriminate].
  intros [= <-]. cbn [t_vec t_alpha2 t_alpha3 t_numeric].
  exists es. split; [apply lists_entries; now exists a|]. split; [reflexivity|]. split; [exact E2|]. split; [exact E3|reflexivity].
Qed.
Lemma language_false l root t t' : build_language_list l root t = Returned (false, t') ->
  (forall es, ~ lists root "639-2" (language_record l) es) /\ same_maps t t'.
Proof.
  unfold build_language_list, same_maps. destruct (entries (lit "639-2") root) as [a|] eqn:Ea.
  - destruct (fill (language_append l) a (t_vec t)) as [[] v] eqn:Ef.
    + destruct (index_all eqs _ _ _); [|discriminate]. destruct (index_all eqs _ _ _); discriminate.
    + destruct (filled _ _ (language_append_iff l) (no_language l) _ _ _ _ Ef) as [_ H]. destruct (H eq_refl) as [Nf _].
      intros [= <-]. split; [|tauto]. intros es L. apply lists_entries in L. destruct L as [a1 [E1 F1]].
      assert (a1 = a) by congruence. subst a1. now apply (Nf es).
  - intros [= <-]. split; [|tauto]. intros es L. apply lists_entries in L. destruct L as [a1 [E1 _]]. congruence.
Qed.
Lemma language_total l root t : build_language_list l root t <> Terminated.
Proof.
  unfold build_language_list. destruct (entries (lit "639-2") root) as [a|] eqn:Ea; [|discriminate].
  destruct (fill (language_append l) a (t_vec t)) as [[] v] eqn:Ef; [|discriminate].
  destruct (index_total eqs (fun e => Some (match e_alpha2 e with [] => None | k => Some k end)) (v_gen v) (v_items v) 0 (t_alpha2 t)) as [m2 E2]; [discriminate|].
  destruct (index_total eqs (fun e => Some (Some (e_alpha3 e))) (v_gen v) (v_items v) 0 (t_alpha3 t)) as [m3 E3]; [discriminate|].
  unfold index_all. rewrite E2, E3. discriminate.
Qed.

(** The lookups in a table whose maps were empty before. *)
Lemma country_answers l root t t' u g : unmapped t -> build_country_list l root t = Returned (true, t') ->
  exists es, lists root "3166-1" (country_record l) es /\ answers_countries (mkIso t' u g) (v_items (t_vec t) ++ es).
Proof.
  intros [U2 [U3 Un]] B. destruct (country_true _ _ _ _ B) as [es [L [_ [Ev [I2 [I3 In_]]]]]]. rewrite U2 in I2. rewrite U3 in I3.
  rewrite Un in In_. exists es. split; [exact L|]. assert (Ei : v_items (t_vec t') = v_items (t_vec t) ++ es) by (rewrite Ev; apply after_items).
  unfold answers_countries, country_by_alpha2, country_by_alpha3, country_by_numeric. cbn [countries]. rewrite <- Ei.
  split; [|split]; intro q.
  - destruct (looked_fresh eqs _ eqs_eq _ _ I2 q) as [r [Hr Fr]]. exists r. split; [exact Hr|].
    eapply first_name_iff; [|exact Fr]. intro e. split; [intros [= H]; exact H|intros <-; reflexivity].
  - destruct (looked_fresh eqs _ eqs_eq _ _ I3 q) as [r [Hr Fr]]. exists r. split; [exact Hr|].
    eapply first_name_iff; [|exact Fr]. intro e. split; [intros [= H]; exact H|intros <-; reflexivity].
  - destruct (looked_fresh Z.eqb _ Z.eqb_eq _ _ In_ q) as [r [Hr Fr]]. exists r. split; [exact Hr|].
    eapply first_name_iff; [|exact Fr]. intro e. apply numeric_key_iff.
Qed.
Lemma currency_answers l root t t' c g : unmapped t -> build_currency_list l root t = Returned (true, t') ->
  exists es, lists root "4217" (currency_record l) es /\ answers_currencies (mkIso c t' g) (v_items (t_vec t) ++ es).
Proof.
  intros [U2 [U3 Un]] B. destruct (currency_true _ _ _ _ B) as [es [L [_ [Ev [_ [I3 In_]]]]]]. rewrite U3 in I3.
  rewrite Un in In_. exists es. split; [exact L|]. assert (Ei : v_items (t_vec t') = v_items (t_vec t) ++ es) by (rewrite Ev; apply after_items).
  unfold answers_currencies, currency_by_alpha3, currency_by_numeric. cbn [currencies]. rewrite <- Ei.
  split; intro q.
  - destruct (looked_fresh eqs _ eqs_eq _ _ I3 q) as [r [Hr Fr]]. exists r. split; [exact Hr|].
    eapply first_name_iff; [|exact Fr]. intro e. split; [intros [= H]; exact H|intros <-; reflexivity].
  - destruct (looked_fresh Z.eqb _ Z.eqb_eq _ _ In_ q) as [r [Hr Fr]]. exists r. split; [exact Hr|].
    eapply first_name_iff; [|exact Fr]. intro e. apply numeric_key_iff.
Qed.
Lemma language_answers l root t t' c u : unmapped t -> build_language_list l root t = Returned (true, t') ->
  exists es, lists root "639-2" (language_record l) es /\ answers_languages (mkIso c u t') (v_items (t_vec t) ++ es).
Proof.
  intros [U2 [U3 Un]] B. destruct (language_true _ _ _ _ B) as [es [L [Ev [I2 [I3 _]]]]]. rewrite U2 in I2. rewrite U3 in I3.
  exists es. split; [exact L|]. assert (Ei : v_items (t_vec t') = v_items (t_vec t) ++ es) by (rewrite Ev; apply after_items).
  unfold answers_languages, language_by_alpha2, language_by_alpha3. cbn [languages]. rewrite <- Ei.
  split; intro q.
  - destruct (looked_fresh eqs _ eqs_eq _ _ I2 q) as [r [Hr Fr]]. exists r. split; [exact Hr|].
    eapply first_name_iff; [|exact Fr]. intro e. cbv beta. destruct (e_alpha2 e) as [|x k].
    + split; [discriminate|]. intros [<- H]. contradiction.
    + split; [intros [= <-]; split; [reflexivity|discriminate]|intros [<- _]; reflexivity].
  - destruct (looked_fresh eqs _ eqs_eq _ _ I3 q) as [r [Hr Fr]]. exists r. split; [exact Hr|].
    eapply first_name_iff; [|exact Fr]. intro e. split; [intros [= H]; exact H|intros <-; reflexivity].
Qed.
Lemma answers_empty s : unmapped (countries s) -> answers_countries s [].
Proof.
  intros [U2 [U3 Un]]. unfold answers_countries, country_by_alpha2, country_by_alpha3, country_by_numeric. rewrite U2, U3, Un.
  split; [|split]; intro q; exists None; (split; [reflexivity|now intros e I]).
Qed.
Lemma answers_empty_u s : unmapped (currencies s) -> answers_currencies s [].
Proof.
  intros [U2 [U3 Un]]. unfold answers_currencies, currency_by_alpha3, currency_by_numeric. rewrite U3, Un.
  split; intro q; exists None; (split; [reflexivity|now intros e I]).
Qed.
Lemma answers_empty_l s : unmapped (languages s) -> answers_languages s [].
Proof.
  intros [U2 [U3 Un]]. unfold answers_languages, language_by_alpha2, language_by_alpha3. rewrite U2, U3.
  split; intro q; exists None; (split; [reflexivity|now intros e I]).
Qed.
Lemma same_unmapped t t' : same_maps t t' -> unmapped t -> unmapped t'.
Proof. unfold same_maps, unmapped. intros [-> [-> ->]]. tauto. Qed.

(** ** The directory *)
Lemma directory_spec p name : p <> [] -> exists d, directory p = Ret d /\ in_directory p name (d ++ lit name).
Proof.
  intro N. unfold directory, in_directory, ends_in_slash. destruct (rev p) as [|c r] eqn:E.
  - exfalso. apply N. rewrite <- (rev_involutive p), E. reflexivity.
  - assert (Ep : p = rev r ++ [c]) by (rewrite <- (rev_involutive p), E; reflexivity).
    eexists. split; [reflexivity|]. destruct (Z.eqb_spec c 0x2F) as [->|H].
    + left. split; [exists (rev r); exact Ep|reflexivity].
    + right. split; [|now rewrite <- app_assoc]. intros [q Eq]. rewrite Eq in Ep. apply app_inj_tail in Ep. destruct Ep. congruence.
Qed.
Lemma in_directory_det p name x y : in_directory p name x -> in_directory p name y -> x = y.
Proof. intros [[S1 ->]|[S1 ->]] [[S2 ->]|[S2 ->]]; [reflexivity|contradiction|contradiction|reflexivity]. Qed.

(** ** isocodes_init *)
Definition chosen (l : lib) (path : option (list Z)) : list Z := match path with Some p => p | None => iso_path l end.
Lemma from_file_none l n : from_file l n = None <-> missing l n.
Proof.
  unfold from_file, missing. destruct (file l n) as [d|]; [|tauto]. destruct d; split; try discriminate; try tauto; intros [H|H]; discriminate.
Qed.
Lemma from_file_some l n d : from_file l n = Some d -> file l n = Some d.
Proof. unfold from_file. destruct (file l n) as [e|]; [|discriminate]. destruct e; try discriminate; tauto. Qed.
Lemma load_ends l n build t k r t' : load l n build t k = Returned (r, t') -> 0 < k ->
  (r = k /\ missing l n /\ t' = t) \/
  (exists d, file l n = Some d /\ (r = 0 /\ build l d t = Returned (true, t') \/ r = - k /\ build l d t = Returned (false, t'))).
Proof.
  unfold load. intros H K. destruct (from_file l n) as [d|] eqn:E.
  - right. exists d. split; [now apply from_file_some|]. destruct (build l d t) as [[[] t1]|]; [| |discriminate]; inversion H; subst; tauto.
  - left. inversion H; subst. split; [reflexivity|]. split; [now apply from_file_none|reflexivity].
Qed.
Lemma unmapped0 : unmapped table0.
Proof. repeat split. Qed.
Lemma init_reports l path s r s' : s = isocodes0 -> isocodes_init l path s = Ret (Returned (r, s')) ->
  reports l (chosen l path) r s'.
Proof.
  intros S0 H. unfold isocodes_init in H. fold (chosen l path) in H. set (p := chosen l path) in *.
  assert (Np : p <> []) by (intros Ep; rewrite Ep in H; discriminate).
  destruct (directory_spec p "iso_3166-1.json" Np) as [d [Ed D1]].
  destruct (directory_spec p "iso_4217.json" Np) as [d2 [Ed2 D2]]. assert (d2 = d) by congruence. subst d2.
  destruct (directory_spec p "iso_639-2.json" Np) as [d3 [Ed3 D3]]. assert (d3 = d) by congruence. subst d3.
  rewrite Ed in H. cbn [bind] in H. unfold reports.
  exists (d ++ lit "iso_3166-1.json"), (d ++ lit "iso_4217.json"), (d ++ lit "iso_639-2.json").
  split; [exact D1|]. split; [exact D2|]. split; [exact D3|]. clear Np Ed Ed2 Ed3 D1 D2 D3.
  set (n1 := d ++ lit "iso_3166-1.json") in *. set (n2 := d ++ lit "iso_4217.json") in *. set (n3 := d ++ lit "iso_639-2.json") in *.
  clearbody n1 n2 n3. pose proof unmapped0 as U0. subst s. cbn [countries currencies languages isocodes0] in H.
  destruct (load l n1 build_country_list table0 1) as [[r1 t1]|] eqn:L1; [|discriminate].
  apply load_ends in L1; [|lia]. destruct L1 as [[-> [M1 ->]]|[d1 [F1 [[-> B1]|[-> B1]]]]].
  - cbn in H. inversion H; subst r s'. exists [], [], []. split; [now apply answers_empty|]. split; [now apply answers_empty_u|].
    split; [now apply answers_empty_l|]. cbv zeta. tauto.
  - destruct (country_answers _ _ _ _ table0 table0 U0 B1) as [cs [C1 A1]]. cbn [t_vec table0 v_items app] in A1.
    assert (LC : listed l n1 "3166-1" (country_record l) cs) by (exists d1; tauto).
    change (negb (0 =? 0)) with false in H. cbv iota in H. cbn [countries currencies languages] in H.
    assert (AC : forall u g, answers_countries (mkIso t1 u g) cs) by (intros u g; exact A1).
    destruct (load l n2 build_currency_list table0 2) as [[r2 t2]|] eqn:L2; [|discriminate].
    apply load_ends in L2; [|lia]. destruct L2 as [[-> [M2 ->]]|[e2 [F2 [[-> B2]|[-> B2]]]]].
    + cbn in H. inversion H; subst r s'. exists cs, [], []. split; [apply AC|]. split; [now apply answers_empty_u|].
      split; [now apply answers_empty_l|]. cbv zeta. tauto.
    + destruct (currency_answers _ _ _ _ t1 table0 U0 B2) as [us [C2 A2]]. cbn [t_vec table0 v_items app] in A2.
      assert (LU : listed l n2 "4217" (currency_record l) us) by (exists e2; tauto).
      change (negb (0 =? 0)) with false in H. cbv iota in H. cbn [countries currencies languages] in H.
      assert (AU : forall g, answers_currencies (mkIso t1 t2 g) us) by (intros g; exact A2).
      destruct (load l n3 build_language_list table0 3) as [[r3 t3]|] eqn:L3; [|discriminate].
      inversion H; subst r s'. clear H.
      apply load_ends in L3; [|lia]. destruct L3 as [[-> [M3 ->]]|[e3 [F3 [[-> B3]|[-> B3]]]]].
      * exists cs, us, []. split; [apply AC|]. split; [apply AU|]. split; [now apply answers_empty_l|]. cbv zeta. tauto.
      * destruct (language_answers _ _ _ _ t1 t2 U0 B3) as [ls [C3 A3]]. cbn [t_vec table0 v_items app] in A3.
        exists cs, us, ls. split; [apply AC|]. split; [apply AU|]. split; [exact A3|]. cbv zeta.
        assert (LL : listed l n3 "639-2" (language_record l) ls) by (exists e3; tauto). tauto.
      * destruct (language_false _ _ _ _ B3) as [N3 SM]. exists cs, us, []. split; [apply AC|]. split; [apply AU|].
        split; [apply answers_empty_l; now apply (same_unmapped table0)|]. cbv zeta.
        assert (ML : malformed l n3 "639-2" (language_record l)) by (exists e3; tauto). tauto.
    + destruct (currency_false _ _ _ _ B2) as [N2 SM]. cbn in H. inversion H; subst r s'. exists cs, [], []. split; [apply AC|].
      split; [apply answers_empty_u; now apply (same_unmapped table0)|]. split; [now apply answers_empty_l|]. cbv zeta.
      assert (ML : malformed l n2 "4217" (currency_record l)) by (exists e2; tauto). tauto.
  - destruct (country_false _ _ _ _ B1) as [N1 SM]. cbn in H. inversion H; subst r s'. exists [], [], [].
    split; [apply answers_empty; now apply (same_unmapped table0)|]. split; [now apply answers_empty_u|].
    split; [now apply answers_empty_l|]. cbv zeta.
    assert (ML : malformed l n1 "3166-1" (country_record l)) by (exists d1; tauto). tauto.
Qed.

(** The call never misbehaves by itself; it is ended by std::terminate only for a numeric code that is no number. *)
Definition has_numbers (l : lib) (n : list Z) (key : string) (record : json -> entry -> Prop) : Prop :=
  forall es, listed l n key record es -> numbers es.
Lemma init_returns l path s : chosen l path <> [] -> numbers (v_items (t_vec (countries s))) ->
  numbers (v_items (t_vec (currencies s))) ->
  (forall n, in_directory (chosen l path) "iso_3166-1.json" n -> has_numbers l n "3166-1" (country_record l)) ->
  (forall n, in_directory (chosen l path) "iso_4217.json" n -> has_numbers l n "4217" (currency_record l)) ->
  exists r s', isocodes_init l path s = Ret (Returned (r, s')).
Proof.
  intros Np Nc Nu Hc Hu. unfold isocodes_init. fold (chosen l path). set (p := chosen l path) in *.
  destruct (directory_spec p "iso_3166-1.json" Np) as [d [Ed D1]].
  destruct (directory_spec p "iso_4217.json" Np) as [d2 [Ed2 D2]]. assert (d2 = d) by congruence. subst d2.
  rewrite Ed. cbn [bind]. specialize (Hc _ D1). specialize (Hu _ D2).
  assert (App : forall a b, numbers a -> numbers b -> numbers (a ++ b)).
  { intros a b Ha Hb e I. apply in_app_iff in I. destruct I; [now apply Ha|now apply Hb]. }
  destruct (load l (d ++ lit "iso_3166-1.json") build_country_list (countries s) 1) as [[r1 t1]|] eqn:L1.
  2:{ exfalso. unfold load in L1. destruct (from_file _ _) as [d1|] eqn:F1; [|discriminate]. apply from_file_some in F1.
      destruct (build_country_list l d1 (countries s)) as [[[] t1]|] eqn:B1; try discriminate.
      destruct (country_terminated _ _ _ B1) as [es [Ls Nn]]. apply Nn. apply App; [exact Nc|]. apply Hc. exists d1. tauto. }
  destruct (negb (r1 =? 0)); [eauto|]. cbn [currencies languages countries].
  destruct (load l (d ++ lit "iso_4217.json") build_currency_list (currencies s) 2) as [[r2 t2]|] eqn:L2.
  2:{ exfalso. unfold load in L2. destruct (from_file _ (d ++ lit "iso_4217.json")) as [d1|] eqn:F1; [|discriminate]. apply from_file_some in F1.
      destruct (build_currency_list l d1 (currencies s)) as [[[] t2]|] eqn:B1; try discriminate.
      destruct (currency_terminated _ _ _ B1) as [es [Ls Nn]]. apply Nn. apply App; [exact Nu|]. apply Hu. exists d1. tauto. }
  destruct (negb (r2 =? 0)); [eauto|]. cbn [currencies languages countries].
  destruct (load l (d ++ lit "iso_639-2.json") build_language_list (languages s) 3) as [[r3 t3]|] eqn:L3; [eauto|].
  exfalso. unfold load in L3. destruct (from_file _ (d ++ lit "iso_639-2.json")) as [d1|]; [|discriminate].
  destruct (build_language_list l d1 (languages s)) as [[[] t3]|] eqn:B1; try discriminate. now apply language_total in B1.
Qed.

(** ** A second call *)
(** After a first call the vector is full. *)
Lemma country_full l root t' : build_country_list l root table0 = Returned (true, t') ->
  (v_cap (t_vec t') <= length (v_items (t_vec t')))%nat.
Proof.
  intro B. destruct (country_true _ _ _ _ B) as [es [_ [_ [Ev _]]]]. rewrite Ev, after_items. unfold after.
  cbn [t_vec table0 v_items app]. destruct es as [|e es]; [cbn; lia|].
  assert (R : reserve (length (e :: es)) (mkVec [] 0 0) = mkVec [] (length (e :: es)) 1) by reflexivity.
  rewrite R. destruct (pushes_room (e :: es) (mkVec [] (length (e :: es)) 1)) as [_ ->]; cbn [v_items v_cap List.length]; lia.
Qed.
Lemma country_moved l root t t' : (v_cap (t_vec t) <= length (v_items (t_vec t)))%nat ->
  build_country_list l root t = Returned (true, t') -> (v_gen (t_vec t) < v_gen (t_vec t'))%nat.
Proof.
  intros F B. destruct (country_true _ _ _ _ B) as [es [L [_ [Ev _]]]]. rewrite Ev. unfold after.
  assert (Ne : es <> []).
  { destruct L as [f [a [_ [_ [Na Fa]]]]]. intros ->. inversion Fa; subst. contradiction. }
  destruct es as [|e es]; [contradiction|]. unfold reserve. destruct (Nat.ltb_spec (v_cap (t_vec t)) (length (e :: es))) as [H|H].
  - pose proof (pushes_gen (e :: es) (mkVec (v_items (t_vec t)) (length (e :: es)) (S (v_gen (t_vec t))))) as G. cbn [v_gen] in G. lia.
  - apply (pushes_full e es (t_vec t) F).
Qed.
(** Every country code that was known is then looked up in storage that has been released. *)
Lemma country_again l0 root0 l root t t' : build_country_list l0 root0 table0 = Returned (true, t) ->
  build_country_list l root t = Returned (true, t') ->
  forall s s', countries s = t -> countries s' = t' ->
  (forall q n, country_by_alpha2 s q = Ret (Some n) -> country_by_alpha2 s' q = UB) /\
  (forall q n, country_by_alpha3 s q = Ret (Some n) -> country_by_alpha3 s' q = UB) /\
  (forall q n, country_by_numeric s q = Ret (Some n) -> country_by_numeric s' q = UB).
Proof.
  intros B0 B s s' Es Es'. pose proof (country_full _ _ _ B0) as F. pose proof (country_moved _ _ _ _ F B) as G.
  destruct (country_true _ _ _ _ B0) as [es0 [_ [_ [_ [I2 [I3 In_]]]]]]. cbn [t_alpha2 t_alpha3 t_numeric table0] in I2, I3, In_.
  destruct (country_true _ _ _ _ B) as [es [_ [_ [_ [J2 [J3 Jn]]]]]].
  unfold country_by_alpha2, country_by_alpha3, country_by_numeric. rewrite Es, Es'.
  split; [|split]; intros q n K.
  - destruct (looked_known eqs _ eqs_eq _ _ _ _ I2 K) as [j Fj]. apply (looked_stale eqs _ eqs_eq _ _ _ _ _ _ J2 Fj). lia.
  - destruct (looked_known eqs _ eqs_eq _ _ _ _ I3 K) as [j Fj]. apply (looked_stale eqs _ eqs_eq _ _ _ _ _ _ J3 Fj). lia.
  - destruct (looked_known Z.eqb _ Z.eqb_eq _ _ _ _ In_ K) as [j Fj]. apply (looked_stale Z.eqb _ Z.eqb_eq _ _ _ _ _ _ Jn Fj). lia.
Qed.
(** The country file was read unless the result says otherwise. *)
Lemma init_country l path s r s' : isocodes_init l path s = Ret (Returned (r, s')) -> r <> 1 -> r <> -1 ->
  exists root, build_country_list l root (countries s) = Returned (true, countries s').
Proof.
  unfold isocodes_init. destruct (directory _) as [d| |]; try discriminate. cbn [bind].
  destruct (load l _ build_country_list (countries s) 1) as [[r1 t1]|] eqn:L1; [|discriminate].
  apply load_ends in L1; [|lia]. intros H R1 R2.
  destruct L1 as [[-> [M1 ->]]|[d1 [F1 [[-> B1]|[-> B1]]]]]; [cbn in H; inversion H; congruence| |cbn in H; inversion H; congruence].
  change (negb (0 =? 0)) with false in H. cbv iota in H. cbn [countries currencies languages] in H. exists d1. rewrite B1.
  destruct (load l _ build_currency_list (currencies s) 2) as [[r2 t2]|]; [|discriminate].
  destruct (negb (r2 =? 0)); [inversion H; reflexivity|].
  destruct (load l _ build_language_list (languages s) 3) as [[r3 t3]|]; [|discriminate]. inversion H. reflexivity.
Qed.
Lemma init_one l path s s' : isocodes_init l path s = Ret (Returned (1, s')) -> s' = s.
Proof.
  unfold isocodes_init. destruct (directory _) as [d| |]; try discriminate. cbn [bind].
  destruct (load l _ build_country_list (countries s) 1) as [[r1 t1]|] eqn:L1; [|discriminate].
  apply load_ends in L1; [|lia]. intro H.
  destruct L1 as [[-> [M1 ->]]|[d1 [F1 [[-> B1]|[-> B1]]]]].
  - cbn in H. inversion H. now destruct s.
  - change (negb (0 =? 0)) with false in H. cbv iota in H. cbn [countries currencies languages] in H.
    destruct (load l _ build_currency_list (currencies s) 2) as [[r2 t2]|] eqn:L2; [|discriminate]. apply load_ends in L2; [|lia].
    destruct (negb (r2 =? 0)) eqn:Er.
    { inversion H. destruct L2 as [[? _]|[? [_ [[? _]|[? _]]]]]; lia. }
    destruct (load l _ build_language_list (languages s) 3) as [[r3 t3]|] eqn:L3; [|discriminate]. apply load_ends in L3; [|lia].
    inversion H. destruct L3 as [[? _]|[? [_ [[? _]|[? _]]]]]; lia.
  - cbn in H. inversion H.
Qed.
