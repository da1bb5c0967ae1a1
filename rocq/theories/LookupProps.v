(** Property theorems for the tables of codes and names: C139-C144. *)
From Coq Require Import String.
From Verif Require Import Base BaseLemmas StrModel ToolsModel DecodeModel LookupModel LookupSpec LookupProofs LookupTables.
Open Scope string_scope.
Open Scope Z_scope.
Open Scope list_scope.
Notation length := List.length.

(** Documents for the examples. *)
Definition obj (l : list (string * string)) : json := JObj (map (fun p => (lit (fst p), JStr (lit (snd p)))) l).
Definition doc (key : string) (l : list json) : json := JObj [(lit key, JArr l)].
Definition files (l : list (string * json)) : list Z -> option json :=
  fun n => find eqs n (map (fun p => (lit (fst p), snd p)) l).
Definition nl : json := obj [("alpha_2", "NL"); ("alpha_3", "NLD"); ("name", "Netherlands"); ("numeric", "528")].
Definition za : json := obj [("alpha_2", "ZA"); ("alpha_3", "ZAF"); ("name", "South Africa"); ("numeric", "710")].
Definition xx : json := obj [("alpha_2", "NL"); ("alpha_3", "XXX"); ("name", "Other"); ("numeric", "0528")].
Definition eur : json := obj [("alpha_3", "EUR"); ("name", "Euro"); ("numeric", "978")].
Definition eng : json := obj [("alpha_2", "en"); ("alpha_3", "eng"); ("name", "English")].
Definition ace : json := obj [("alpha_3", "ace"); ("name", "Achinese")].
Definition shop : json := JObj [(lit "mcc", JStr (lit "5999")); (lit "edited_description", JStr (lit "Shop")); (lit "id", JInt 854)].
Definition store : json := JObj [(lit "mcc", JStr (lit "5999")); (lit "edited_description", JStr (lit "Store")); (lit "id", JInt 855)].
Definition lib1 : lib := mkLib (fun _ => [])
  (files [("/a/iso_3166-1.json", doc "3166-1" [nl; za; xx]); ("/a/iso_4217.json", doc "4217" [eur]);
          ("/a/iso_639-2.json", doc "639-2" [eng; ace]);
          ("/b/iso_3166-1.json", doc "3166-1" [nl; obj [("name", "x"); ("alpha_2", ""); ("alpha_3", ""); ("numeric", "none")]]);
          ("/c/iso_3166-1.json", doc "3166-1" [xx; JInt 3]);
          ("/d/iso_3166-1.json", doc "3166-1" [za]);
          ("/m", JArr [shop]); ("/n", JArr [store; JNull])])
  (lit "/a") (lit "/m").
Definition state_of (o : out (ended (Z * isocodes))) : isocodes :=
  match o with Ret (Returned (_, s)) => s | _ => isocodes0 end.

(** C139.  After the first initialisation, if it returns 0, every lookup gives the name in the first record of the
    file that has the code, and NULL if there is none. *)
Theorem C139_isocodes : forall l path s, isocodes_init l path isocodes0 = Ret (Returned (0, s)) ->
  exists n1 n2 n3 cs us ls,
    in_directory (chosen l path) "iso_3166-1.json" n1 /\ listed l n1 "3166-1" (country_record l) cs /\ answers_countries s cs /\
    in_directory (chosen l path) "iso_4217.json" n2 /\ listed l n2 "4217" (currency_record l) us /\ answers_currencies s us /\
    in_directory (chosen l path) "iso_639-2.json" n3 /\ listed l n3 "639-2" (language_record l) ls /\ answers_languages s ls.
Proof.
  intros l path s H. destruct (init_reports _ _ _ _ _ eq_refl H) as [n1 [n2 [n3 [D1 [D2 [D3 [cs [us [ls [A1 [A2 [A3 C]]]]]]]]]]]].
  cbv zeta in C. exists n1, n2, n3, cs, us, ls.
  destruct C as [C|[C|[C|[C|[C|[C|C]]]]]]; destruct C as [C0 C]; try lia. tauto.
Qed.
Print Assumptions C139_isocodes.
(** C139.  It does return 0 if the files are as they should be. *)
Theorem C139_accepts : forall l path n1 n2 n3 cs us ls, chosen l path <> [] ->
  in_directory (chosen l path) "iso_3166-1.json" n1 -> listed l n1 "3166-1" (country_record l) cs ->
  in_directory (chosen l path) "iso_4217.json" n2 -> listed l n2 "4217" (currency_record l) us ->
  in_directory (chosen l path) "iso_639-2.json" n3 -> listed l n3 "639-2" (language_record l) ls ->
  (forall es, listed l n1 "3166-1" (country_record l) es -> forall e, In e es -> exists q, number (e_numeric e) q) ->
  (forall es, listed l n2 "4217" (currency_record l) es -> forall e, In e es -> exists q, number (e_numeric e) q) ->
  exists s, isocodes_init l path isocodes0 = Ret (Returned (0, s)).
Proof.
  intros l path n1 n2 n3 cs us ls Np D1 L1 D2 L2 D3 L3 N1 N2.
  destruct (init_returns l path isocodes0 Np) as [r [s H]].
  - intros e [].
  - intros e [].
  - intros n D. rewrite (in_directory_det _ _ _ _ D D1). exact N1.
  - intros n D. rewrite (in_directory_det _ _ _ _ D D2). exact N2.
  - exists s. rewrite H. do 3 f_equal. clear N1 N2 Np.
    destruct (init_reports _ _ _ _ _ eq_refl H) as [m1 [m2 [m3 [E1 [E2 [E3 [cs1 [us1 [ls1 [_ [_ [_ C]]]]]]]]]]]]. cbv zeta in C.
    rewrite (in_directory_det _ _ _ _ E1 D1), (in_directory_det _ _ _ _ E2 D2), (in_directory_det _ _ _ _ E3 D3) in C.
    assert (Miss : forall n key R es, listed l n key R es -> ~ missing l n).
    { intros n key R es [d [F [f [a [-> _]]]]] [M|M]; congruence. }
    assert (Mal : forall n key R es, listed l n key R es -> ~ malformed l n key R).
    { intros n key R es [d [F L]] [d1 [F1 M]]. assert (d1 = d) by congruence. subst d1. now apply (M es). }
    pose proof (Miss _ _ _ _ L1). pose proof (Mal _ _ _ _ L1). pose proof (Miss _ _ _ _ L2). pose proof (Mal _ _ _ _ L2).
    pose proof (Miss _ _ _ _ L3). pose proof (Mal _ _ _ _ L3). tauto.
Qed.
Print Assumptions C139_accepts.
(** Of two records with the code NL the first counts; 0528 is the number 528; a language without a two letter code. *)
Example C139_ex : let s := state_of (isocodes_init lib1 None isocodes0) in
  (exists t, isocodes_init lib1 None isocodes0 = Ret (Returned (0, t))) /\
  country_by_alpha2 s (lit "NL") = Ret (Some (lit "Netherlands")) /\ country_by_alpha3 s (lit "XXX") = Ret (Some (lit "Other")) /\
  country_by_numeric s 528 = Ret (Some (lit "Netherlands")) /\ country_by_numeric s 5 = Ret None /\
  currency_by_numeric s 978 = Ret (Some (lit "Euro")) /\ language_by_alpha2 s (lit "en") = Ret (Some (lit "English")) /\
  language_by_alpha2 s [] = Ret None /\ language_by_alpha3 s (lit "ace") = Ret (Some (lit "Achinese")).
Proof. vm_compute. repeat split. eexists. reflexivity. Qed.

(** C140.  The result says which file failed and how, and what the lookups then answer. *)
Theorem C140_reports : forall l path r s, isocodes_init l path isocodes0 = Ret (Returned (r, s)) ->
  reports l (chosen l path) r s.
Proof. intros l path r s H. exact (init_reports _ _ _ _ _ eq_refl H). Qed.
Print Assumptions C140_reports.
(** C140.  Before any initialisation every lookup answers NULL. *)
Theorem C140_before : answers_countries isocodes0 [] /\ answers_currencies isocodes0 [] /\ answers_languages isocodes0 [] /\
  forall n, mcc_lookup [] n = None.
Proof.
  split; [apply answers_empty, unmapped0|]. split; [apply answers_empty_u, unmapped0|]. split; [apply answers_empty_l, unmapped0|].
  reflexivity.
Qed.
Print Assumptions C140_before.
(** In /c the second record is no object; in /d there is only the first file; in /x there is none. *)
Example C140_ex :
  (exists s, isocodes_init lib1 (Some (lit "/x")) isocodes0 = Ret (Returned (1, s))) /\
  (exists s, isocodes_init lib1 (Some (lit "/c/")) isocodes0 = Ret (Returned (-1, s)) /\ country_by_alpha2 s (lit "NL") = Ret None) /\
  (exists s, isocodes_init lib1 (Some (lit "/d")) isocodes0 = Ret (Returned (2, s)) /\
     country_by_alpha2 s (lit "ZA") = Ret (Some (lit "South Africa"))).
Proof. vm_compute. split; [|split]; eexists; repeat split; reflexivity. Qed.

(** C141.  Initialisation returns to its caller.  Partial: if the path is not empty and every numeric code in the files
    is a number. *)
Theorem C141_returns_partial : forall l path, chosen l path <> [] ->
  (forall n, in_directory (chosen l path) "iso_3166-1.json" n ->
     forall es, listed l n "3166-1" (country_record l) es -> forall e, In e es -> exists q, number (e_numeric e) q) ->
  (forall n, in_directory (chosen l path) "iso_4217.json" n ->
     forall es, listed l n "4217" (currency_record l) es -> forall e, In e es -> exists q, number (e_numeric e) q) ->
  exists r s, isocodes_init l path isocodes0 = Ret (Returned (r, s)).
Proof.
  intros l path Np H1 H2. apply init_returns; [exact Np|intros e []|intros e []| |].
  - intros n D es L. exact (H1 n D es L).
  - intros n D es L. exact (H2 n D es L).
Qed.
Print Assumptions C141_returns_partial.
(** C141.  False: a numeric code that is no number ends the program, as std::stoul throws in a noexcept function. *)
Theorem C141_returns_refuted : exists l path, chosen l path <> [] /\ isocodes_init l path isocodes0 = Ret Terminated.
Proof. exists lib1, (Some (lit "/b")). split; [discriminate|vm_compute; reflexivity]. Qed.
Print Assumptions C141_returns_refuted.
(** C141.  False: an empty path is read before its start. *)
Theorem C141_empty_path_refuted : exists l path, isocodes_init l path isocodes0 = UB.
Proof. exists lib1, (Some []). reflexivity. Qed.
Print Assumptions C141_empty_path_refuted.
(** C141.  Nothing else goes wrong. *)
Theorem C141_only_these : forall l path, chosen l path <> [] ->
  (exists r s, isocodes_init l path isocodes0 = Ret (Returned (r, s))) \/ isocodes_init l path isocodes0 = Ret Terminated.
Proof.
  intros l path Np. unfold isocodes_init. fold (chosen l path). destruct (directory_spec _ "iso_3166-1.json" Np) as [d [Ed _]].
  rewrite Ed. cbn [bind]. destruct (load l _ build_country_list _ 1) as [[r1 t1]|]; [|tauto].
  destruct (negb (r1 =? 0)); [eauto|]. destruct (load l _ build_currency_list _ 2) as [[r2 t2]|]; [|tauto].
  destruct (negb (r2 =? 0)); [eauto|]. destruct (load l _ build_language_list _ 3) as [[r3 t3]|]; [eauto|tauto].
Qed.
Print Assumptions C141_only_these.
Example C141_ex : exists s, isocodes_init lib1 (Some (lit "/a/")) isocodes0 = Ret (Returned (0, s)) /\
  country_by_numeric s 710 = Ret (Some (lit "South Africa")).
Proof. vm_compute. eexists. split; reflexivity. Qed.

(** C142.  Initialisation can be repeated.  Partial: a call that could not read the first file has changed nothing. *)
Theorem C142_again_partial : forall l path s s', isocodes_init l path s = Ret (Returned (1, s')) -> s' = s.
Proof. exact init_one. Qed.
Print Assumptions C142_again_partial.
(** C142.  False: after a second call with the same files a country code is looked up in released memory. *)
Theorem C142_again_refuted : exists l path s1 s2 q n, isocodes_init l path isocodes0 = Ret (Returned (0, s1)) /\
  isocodes_init l path s1 = Ret (Returned (0, s2)) /\ country_by_alpha2 s1 q = Ret (Some n) /\ country_by_alpha2 s2 q = UB.
Proof.
  exists lib1, None, (state_of (isocodes_init lib1 None isocodes0)),
    (state_of (isocodes_init lib1 None (state_of (isocodes_init lib1 None isocodes0)))), (lit "NL"), (lit "Netherlands").
  vm_compute. repeat split.
Qed.
Print Assumptions C142_again_refuted.
(** C142.  The same for every code that was known, whatever the files, once two calls have read the country file. *)
Theorem C142_released : forall l path r s l' path' r' s', isocodes_init l path isocodes0 = Ret (Returned (r, s)) ->
  isocodes_init l' path' s = Ret (Returned (r', s')) -> r <> 1 -> r <> -1 -> r' <> 1 -> r' <> -1 ->
  (forall q n, country_by_alpha2 s q = Ret (Some n) -> country_by_alpha2 s' q = UB) /\
  (forall q n, country_by_alpha3 s q = Ret (Some n) -> country_by_alpha3 s' q = UB) /\
  (forall q n, country_by_numeric s q = Ret (Some n) -> country_by_numeric s' q = UB).
Proof.
  intros l path r s l' path' r' s' H H' R1 R2 R3 R4.
  destruct (init_country _ _ _ _ _ H R1 R2) as [root B]. destruct (init_country _ _ _ _ _ H' R3 R4) as [root' B'].
  exact (country_again _ _ _ _ _ _ B B' s s' eq_refl eq_refl).
Qed.
Print Assumptions C142_released.
(** C142.  False as well: after a call that failed on a bad record, the records before it stay and come first. *)
Theorem C142_stale_refuted : exists l path1 path2 s1 s2, isocodes_init l path1 isocodes0 = Ret (Returned (-1, s1)) /\
  isocodes_init l path2 s1 = Ret (Returned (0, s2)) /\ country_by_alpha2 s2 (lit "NL") = Ret (Some (lit "Other")) /\
  country_by_alpha2 (state_of (isocodes_init l path2 isocodes0)) (lit "NL") = Ret (Some (lit "Netherlands")).
Proof.
  exists lib1, (Some (lit "/c")), None, (state_of (isocodes_init lib1 (Some (lit "/c")) isocodes0)),
    (state_of (isocodes_init lib1 None (state_of (isocodes_init lib1 (Some (lit "/c")) isocodes0)))).
  vm_compute. repeat split.
Qed.
Print Assumptions C142_stale_refuted.
Example C142_ex : isocodes_init lib1 (Some (lit "/x")) isocodes0 = Ret (Returned (1, isocodes0)).
Proof. vm_compute. reflexivity. Qed.

(** C143.  Merchant category codes: after mcc_init the last record of the file with a code counts, what was known before
    stays known, and the result says whether the file was there and was right. *)
Theorem C143_mcc : forall l path m r m', mcc_init l path m = (r, m') ->
  let p := match path with Some p => p | None => mcc_path l end in
  (r = 1 /\ missing l p /\ m' = m) \/
  (r = 0 /\ exists a ps, file l p = Some (JArr a) /\ a <> [] /\ Forall2 (mcc_record l) a ps /\
     forall n, last_description ps (mcc_lookup m n) n (mcc_lookup m' n)) \/
  (r = -1 /\ exists d, file l p = Some d /\ (forall a ps, d = JArr a -> a <> [] -> ~ Forall2 (mcc_record l) a ps)).
Proof.
  intros l path m r m' H p. unfold mcc_init in H. fold p in H. destruct (from_file l p) as [d|] eqn:F.
  - apply from_file_some in F. right. unfold build_mcc_list in H.
    assert (Bad : (match d with JArr (_ :: _) => False | _ => True end) -> (r, m') = (-1, m) ->
       r = -1 /\ exists d, file l p = Some d /\ (forall a ps, d = JArr a -> a <> [] -> ~ Forall2 (mcc_record l) a ps)).
    { intros Hd [= -> _]. split; [reflexivity|]. exists d. split; [exact F|]. intros a ps -> Na. destruct a; [contradiction|destruct Hd]. }
    destruct d as [|b|x|x|s|a|f]; try (right; apply Bad; [exact I|congruence]).
    destruct a as [|j a]; [right; apply Bad; [exact I|cbn in H; congruence]|]. clear Bad. cbn [List.length Nat.eqb] in H.
    destruct (json_c_visit (array_visit (mcc_add l)) (JArr (j :: a)) m) as [b m1] eqn:V. inversion H; subst r m1. clear H.
    destruct (mcc_visit _ _ _ _ _ V) as [a1 [ps [_ [Fr [Ld C]]]]]. destruct b.
    + left. split; [reflexivity|]. subst a1. exists (j :: a), ps. split; [exact F|]. split; [discriminate|]. split; [exact Fr|].
      intro n. destruct (Ld n) as [ps1 [[->|[X _]] L]]; [exact L|discriminate].
    + right. split; [reflexivity|]. eexists. split; [exact F|]. intros a2 ps2 [= <-] _. apply C.
  - apply from_file_none in F. left. inversion H; subst. tauto.
Qed.
Print Assumptions C143_mcc.
(** C143.  A call that fails in the middle of a file may have changed codes, but only to what records say. *)
Theorem C143_failed : forall l path m m', mcc_init l path m = (-1, m') -> forall n, mcc_lookup m' n = mcc_lookup m n \/
  exists a ps, file l (match path with Some p => p | None => mcc_path l end) = Some (JArr a) /\ (exists a1 a2, a = a1 ++ a2 /\ Forall2 (fun j p => exists f, j = JObj f /\ mcc_fields l f p) a1 ps) /\
    last_description ps (mcc_lookup m n) n (mcc_lookup m' n).
Proof.
  intros l path m m' H n. unfold mcc_init in H. set (p := match path with Some p => p | None => mcc_path l end) in *.
  destruct (from_file l p) as [d|] eqn:F; [|discriminate]. apply from_file_some in F. unfold build_mcc_list in H.
  destruct d as [|b|x|x|s|a|f]; try (left; congruence).
  destruct (length a =? 0)%nat; [left; congruence|]. rewrite visit_fill in H.
  destruct (fill_loop (mcc_add l) a m) as [b m1] eqn:V. inversion H; subst m1. destruct b; [discriminate|]. clear H. right.
  rewrite F. exists a.
  assert (G : exists ps, (exists a1 a2, a = a1 ++ a2 /\ Forall2 (fun j p => exists f, j = JObj f /\ mcc_fields l f p) a1 ps) /\ m' = all_of set_mcc ps m).
  { clear F p path n. revert m V. induction a as [|j a IH]; intros m V; cbn [fill_loop] in V; [discriminate|].
    assert (Nil : m' = m -> exists ps, (exists a1 a2, j :: a = a1 ++ a2 /\ Forall2 (fun j p => exists f, j = JObj f /\ mcc_fields l f p) a1 ps) /\ m' = all_of set_mcc ps m).
    { intros ->. exists []. split; [|reflexivity]. exists [], (j :: a). split; [reflexivity|constructor]. }
    destruct j as [|b|x|x|s|u|f]; try (apply Nil; congruence).
    destruct (mcc_add l (JObj f) m) as [m1|] eqn:Ea; [|apply Nil; congruence]. apply mcc_add_iff in Ea. destruct Ea as [q [Fq ->]].
    destruct (text_first f).
    - destruct (IH _ V) as [ps [[a1 [a2 [-> Fr]]] ->]]. exists (q :: ps). split; [|reflexivity].
      exists (JObj f :: a1), a2. split; [reflexivity|]. constructor; [eauto|exact Fr].
    - inversion V; subst m'. exists [q]. split; [|reflexivity]. exists [JObj f], a. split; [reflexivity|]. constructor; [eauto|constructor]. }
  destruct G as [ps [G ->]]. exists ps. split; [reflexivity|]. split; [exact G|]. apply set_all.
Qed.
Print Assumptions C143_failed.
Example C143_ex :
  let m1 := snd (mcc_init lib1 None []) in let m2 := snd (mcc_init lib1 (Some (lit "/n")) m1) in
  fst (mcc_init lib1 None []) = 0 /\ mcc_lookup m1 5999 = Some (lit "Shop") /\ mcc_lookup m1 1 = None /\
  fst (mcc_init lib1 (Some (lit "/n")) m1) = -1 /\ mcc_lookup m2 5999 = Some (lit "Store") /\ mcc_record lib1 shop (5999, lit "Shop").
Proof.
  split; [vm_compute; reflexivity|]. split; [vm_compute; reflexivity|]. split; [vm_compute; reflexivity|].
  split; [vm_compute; reflexivity|]. split; [vm_compute; reflexivity|].
  apply mcc_record_iff. eexists. split; [split; [reflexivity|repeat eexists]|].
  exists (JStr (lit "5999")), 5999. split; [now apply member_has|].
  split; [apply get_int64_iff; [lia|vm_compute; reflexivity]|]. split; [lia|]. split; [reflexivity|].
  apply has_text_iff. eexists. split; reflexivity.
Qed.

(** C144.  emv_strings_init: 0 exactly if both have succeeded, and then both kinds of lookup work. *)
Theorem C144_strings_init : forall l p1 p2 r s m, strings_init l p1 p2 (isocodes0, []) = Ret (Returned (r, (s, m))) ->
  (r = 0 <-> isocodes_init l p1 isocodes0 = Ret (Returned (0, s)) /\ mcc_init l p2 [] = (0, m)).
Proof.
  intros l p1 p2 r s m H. unfold strings_init in H. cbn [fst snd] in H.
  destruct (isocodes_init l p1 isocodes0) as [[[r1 i]|]| |] eqn:E; try discriminate. cbn [bind] in H.
  destruct (Z.eqb_spec r1 0) as [->|N]; cbn [negb] in H.
  - destruct (mcc_init l p2 []) as [r2 m2] eqn:E2. inversion H; subst. split; [intros ->; tauto|intros [_ [= ->]]; reflexivity].
  - inversion H; subst. split; [intros ->; contradiction|intros [[= ->] _]; contradiction].
Qed.
Print Assumptions C144_strings_init.
(** C144.  The result names the failed file.  Partial: 2, -2, 3 and -3 do. *)
Theorem C144_which_partial : forall l p1 p2 r s m, strings_init l p1 p2 (isocodes0, []) = Ret (Returned (r, (s, m))) ->
  r <> 0 -> r <> 1 -> r <> -1 -> reports l (chosen l p1) r s /\ m = [].
Proof.
  intros l p1 p2 r s m H N0 N1 N2. unfold strings_init in H. cbn [fst snd] in H.
  destruct (isocodes_init l p1 isocodes0) as [[[r1 i]|]| |] eqn:E; try discriminate. cbn [bind] in H.
  destruct (Z.eqb_spec r1 0) as [->|N]; cbn [negb] in H.
  - exfalso. unfold mcc_init in H. destruct (from_file l _) as [d|]; [|inversion H; congruence].
    destruct (build_mcc_list l d []) as [[] m2]; inversion H; congruence.
  - inversion H; subst. split; [exact (init_reports _ _ _ _ _ eq_refl E)|reflexivity].
Qed.
Print Assumptions C144_which_partial.
(** C144.  False: 1 is a missing country file as well as a missing file of merchant category codes. *)
Theorem C144_which_refuted : exists l p1 p2 q1 q2 s m t k,
  strings_init l p1 p2 (isocodes0, []) = Ret (Returned (1, (s, m))) /\ fst (mcc_init l p2 []) = 0 /\
  strings_init l q1 q2 (isocodes0, []) = Ret (Returned (1, (t, k))) /\ isocodes_init l q1 isocodes0 = Ret (Returned (0, t)).
Proof.
  exists lib1, (Some (lit "/x")), None, None, (Some (lit "/x")), isocodes0, [], (state_of (isocodes_init lib1 None isocodes0)), [].
  vm_compute. repeat split.
Qed.
Print Assumptions C144_which_refuted.
Example C144_ex : exists s m, strings_init lib1 None None (isocodes0, []) = Ret (Returned (0, (s, m))) /\
  country_by_alpha2 s (lit "NL") = Ret (Some (lit "Netherlands")) /\ mcc_lookup m 5999 = Some (lit "Shop").
Proof. vm_compute. do 2 eexists. split; [reflexivity|split; reflexivity]. Qed.
