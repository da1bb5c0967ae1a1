(** Property theorems for src/iso8859_iconv.c and src/iso8859_boost.cpp: C145-C147. *)
From Verif Require Import Base BaseLemmas StrModel LookupModel LookupSpec LookupProofs ConvModel.
Notation length := List.length.
Notation concat := List.concat.

(** The characters of [iso] and their UTF-8 octets. *)
Definition converts (lib : iconv_lib) (cp : Z) (iso : list Z) (us : list (list Z)) : Prop :=
  Forall2 (fun c u => utf8_of lib cp c = Some u) iso us.
Definition code_page (cp : Z) : Prop := 1 <= cp <= 15 /\ cp <> 12.

Lemma supported_iff cp : supported cp = true <-> code_page cp.
Proof. unfold supported, code_page. lia. Qed.
Lemma loop_spec lib cp iso : forall pre rest, exists b k us,
  iconv_loop lib cp iso (pre ++ rest) (length pre) = Ret (b, pre ++ concat us ++ skipn (length (concat us)) rest) /\
  converts lib cp (firstn k iso) us /\ (length (concat us) <= length rest)%nat /\
  (if b then k = length iso
   else (k < length iso)%nat /\ (utf8_of lib cp (nth k iso 0) = None \/
     exists u, utf8_of lib cp (nth k iso 0) = Some u /\ (length rest < length (concat us ++ u))%nat)).
Proof.
  induction iso as [|c iso IH]; intros pre rest; cbn [iconv_loop].
  - exists true, O, []. split; [reflexivity|]. split; [constructor|]. split; [cbn; lia|reflexivity].
  - destruct (utf8_of lib cp c) as [u|] eqn:E.
    + destruct (Nat.ltb_spec (length (pre ++ rest)) (length pre + length u)) as [H|H].
      * exists false, O, []. split; [reflexivity|]. split; [constructor|]. split; [cbn; lia|]. split; [cbn [List.length]; lia|].
        right. exists u. split; [exact E|]. rewrite app_length in H. cbn [List.concat app]. lia.
      * rewrite app_length in H. rewrite put_Ret by (rewrite app_length; lia). cbn [bind].
        rewrite firstn_app, Nat.sub_diag, firstn_all, firstn_O, app_nil_r.
        rewrite skipn_app, skipn_all2 by lia. cbn [app]. replace (length pre + length u - length pre)%nat with (length u) by lia.
        rewrite <- app_length. destruct (IH (pre ++ u) (skipn (length u) rest)) as [b [k [us [Er [Cv [Ln C]]]]]].
        rewrite <- app_assoc in Er. rewrite Er. exists b, (S k), (u :: us). cbn [List.concat].
        rewrite skipn_length in Ln, C. split; [|split; [|split]].
        -- rewrite <- !app_assoc. do 5 f_equal. rewrite app_length. clear.
           generalize (length (concat us)) as m. intro m. revert rest. induction (length u) as [|n I]; intro rest; [reflexivity|].
           destruct rest as [|x rest]; [now rewrite !skipn_nil|]. cbn [skipn Nat.add]. apply I.
        -- cbn [firstn]. constructor; assumption.
        -- rewrite app_length. lia.
        -- destruct b; [cbn [List.length]; congruence|]. destruct C as [Ck C]. split; [cbn [List.length]; lia|]. cbn [nth].
           destruct C as [C|[w [Ew C]]]; [now left|right]. exists w. split; [exact Ew|]. rewrite <- app_assoc, app_length. lia.
    + exists false, O, []. split; [reflexivity|]. split; [constructor|]. split; [cbn; lia|]. split; [cbn [List.length]; lia|].
      now left.
Qed.
Lemma converts_det lib cp iso us vs : converts lib cp iso us -> converts lib cp iso vs -> us = vs.
Proof.
  unfold converts. intro H. revert vs. induction H as [|c u iso us Hu _ IH]; intros vs H1; inversion H1; subst; [reflexivity|].
  f_equal; [congruence|now apply IH].
Qed.
Lemma converts_firstn lib cp iso us k : converts lib cp iso us -> converts lib cp (firstn k iso) (firstn k us).
Proof.
  unfold converts. intro H. revert k. induction H as [|c u iso us Hu _ IH]; intros [|k]; cbn [firstn]; constructor; [exact Hu|apply IH].
Qed.
Lemma converts_nth lib cp iso us k : converts lib cp iso us -> (k < length iso)%nat ->
  exists u r, utf8_of lib cp (nth k iso 0) = Some u /\ us = firstn k us ++ u :: r.
Proof.
  unfold converts. intro H. revert k. induction H as [|c u iso us Hu _ IH]; intros [|k] L; cbn [List.length] in L; try lia.
  - exists u, us. split; [exact Hu|reflexivity].
  - destruct (IH k) as [w [r [Ew Er]]]; [lia|]. exists w, r. cbn [nth firstn app]. split; [exact Ew|congruence].
Qed.

(** C145.  The iconv implementation: the result is 0 exactly if every character can be converted and they fit.  Then the
    buffer holds their UTF-8 form; what is behind it is as before. *)
Theorem C145_iconv_exact : forall lib cp iso utf8, iso <> [] -> utf8 <> [] -> code_page cp -> opens lib cp = true ->
  exists r b, to_utf8_iconv lib cp iso utf8 = Ret (r, b) /\ length b = length utf8 /\ (r = 0 \/ r = 2) /\
    (r = 0 <-> exists us, converts lib cp iso us /\ (length (concat us) <= length utf8)%nat) /\
    (forall us, r = 0 -> converts lib cp iso us -> b = concat us ++ skipn (length (concat us)) (0 :: tl utf8)).
Proof.
  intros lib cp iso utf8 Ni Nu Cp Op. unfold to_utf8_iconv.
  destruct iso as [|c iso]; [contradiction|]. destruct utf8 as [|x utf8]; [contradiction|]. cbn [List.length Nat.eqb orb tl].
  rewrite wr_Ret by (cbn [List.length]; lia). cbn [bind upd]. apply supported_iff in Cp. rewrite Cp, Op. cbn [negb].
  destruct (loop_spec lib cp (c :: iso) [] (0 :: utf8)) as [b [k [us [Er [Cv [Ln C]]]]]]. cbn [app List.length] in Er.
  rewrite Er. cbn [bind]. eexists. eexists. split; [reflexivity|].
  split; [rewrite app_length, skipn_length; cbn [List.length] in *; lia|]. split; [destruct b; tauto|].
  destruct b.
  - rewrite C, firstn_all in Cv. split.
    + split; [intros _; exists us; split; [exact Cv|cbn [List.length] in Ln; lia]|reflexivity].
    + intros vs _ Cw. now rewrite (converts_det _ _ _ _ _ Cw Cv).
  - split; [|discriminate]. split; [discriminate|]. intros [vs [Cw Lw]]. exfalso. destruct C as [Ck C].
    destruct (converts_nth _ _ _ _ _ Cw Ck) as [w [r [Ew Es]]].
    assert (Eu : us = firstn k vs) by (eapply converts_det; [exact Cv|now apply converts_firstn]).
    destruct C as [C|[u [Eu2 C]]]; [congruence|]. assert (u = w) by congruence. subst u.
    rewrite Es, concat_app, app_length in Lw. cbn [List.concat] in Lw. rewrite app_length in Lw. rewrite <- Eu in Lw.
    rewrite app_length in C. cbn [List.length] in *. lia.
Qed.
Print Assumptions C145_iconv_exact.
(** C145.  The text is terminated.  Partial: if the buffer was filled with NUL and is longer than the text. *)
Theorem C145_terminated_partial : forall lib cp iso n us, iso <> [] -> code_page cp -> opens lib cp = true ->
  converts lib cp iso us -> (length (concat us) < n)%nat ->
  to_utf8_iconv lib cp iso (repeat 0 n) = Ret (0, concat us ++ repeat 0 (n - length (concat us))).
Proof.
  intros lib cp iso n us Ni Cp Op Cv Ln. destruct n as [|n]; [lia|].
  destruct (C145_iconv_exact lib cp iso (repeat 0 (S n)) Ni ltac:(discriminate) Cp Op) as [r [b [E [_ [_ [R0 Eb]]]]]].
  assert (r = 0) by (apply R0; exists us; split; [exact Cv|rewrite repeat_length; lia]). subst r. rewrite E, (Eb us eq_refl Cv).
  do 3 f_equal. change (0 :: tl (repeat 0 (S n))) with (repeat 0 (S n)). clear.
  revert n. induction (length (concat us)) as [|m IH]; intro n; [now rewrite Nat.sub_0_r|].
  cbn [repeat skipn]. destruct n as [|n]; [now destruct m|]. rewrite IH. reflexivity.
Qed.
Print Assumptions C145_terminated_partial.
(** C145.  False: in any other buffer the text has no end, since iconv writes no NUL. *)
Theorem C145_terminated_refuted : exists lib cp iso utf8 b, bytes iso /\ bytes utf8 /\ code_page cp /\
  (exists us, converts lib cp iso us /\ (length (concat us) < length utf8)%nat) /\
  to_utf8_iconv lib cp iso utf8 = Ret (0, b) /\ ~ In 0 b.
Proof.
  exists (mkIconv (fun _ => true) (fun _ c => Some [c])), 1, [0x41], [7; 7; 7], [0x41; 7; 7].
  split; [repeat constructor; unfold is_byte; lia|]. split; [repeat constructor; unfold is_byte; lia|].
  split; [unfold code_page; lia|]. split; [exists [[0x41]]; split; [repeat constructor|cbn; lia]|].
  split; [reflexivity|]. cbn. lia.
Qed.
Print Assumptions C145_terminated_refuted.
(** C145.  Whatever the input, nothing outside the buffer is written. *)
Theorem C145_iconv_safe : forall lib cp iso utf8, exists r b, to_utf8_iconv lib cp iso utf8 = Ret (r, b) /\ length b = length utf8.
Proof.
  intros lib cp iso utf8. unfold to_utf8_iconv. destruct iso as [|c iso]; [cbn; eauto|]. destruct utf8 as [|x utf8]; [cbn; eauto|].
  cbn [List.length Nat.eqb orb]. rewrite wr_Ret by (cbn [List.length]; lia). cbn [bind upd].
  destruct (supported cp); cbn [negb]; [|eauto]. destruct (opens lib cp); cbn [negb]; [|eauto].
  destruct (loop_spec lib cp (c :: iso) [] (0 :: utf8)) as [b [k [us [Er [_ [Ln _]]]]]]. cbn [app List.length] in Er.
  rewrite Er. cbn [bind]. eexists. eexists. split; [reflexivity|]. rewrite app_length, skipn_length. cbn [List.length] in *. lia.
Qed.
Print Assumptions C145_iconv_safe.
(** The euro sign of ISO 8859-15. *)
Definition latin9 : iconv_lib := mkIconv (fun _ => true) (fun _ c => if c =? 0xA4 then Some [0xE2; 0x82; 0xAC] else if c <? 0x80 then Some [c] else None).
Example C145_ex : to_utf8_iconv latin9 15 [0x35; 0xA4] (repeat 0 6) = Ret (0, [0x35; 0xE2; 0x82; 0xAC; 0; 0]) /\
  to_utf8_iconv latin9 15 [0x35; 0xA4] (repeat 0 3) = Ret (2, [0x35; 0; 0]) /\
  to_utf8_iconv latin9 12 [0x35; 0xA4] (repeat 0 3) = Ret (1, [0; 0; 0]) /\ converts latin9 15 [0x35; 0xA4] [[0x35]; [0xE2; 0x82; 0xAC]].
Proof. split; [reflexivity|]. split; [reflexivity|]. split; [reflexivity|]. repeat constructor. Qed.

(** C146.  The boost implementation: the result is 0 if the library gives a text; then the buffer holds as much of it
    (up to a NUL) as fits and is terminated, and the rest is NUL. *)
Theorem C146_boost_exact : forall to_utf cp iso utf8, iso <> [] -> utf8 <> [] ->
  exists r b, to_utf8_boost to_utf cp iso utf8 = Ret (r, b) /\ length b = length utf8 /\
    (r = 0 <-> code_page cp /\ exists s, to_utf cp iso = Text s /\ s <> []) /\
    (r = 0 -> forall s t, to_utf cp iso = Text s -> before_nul s t ->
       exists k, b = firstn (length utf8 - 1) t ++ repeat 0 k /\ (1 <= k)%nat) /\
    (r <> 0 -> exists u, b = 0 :: u).
Proof.
  intros to_utf cp iso utf8 Ni Nu. unfold to_utf8_boost.
  destruct iso as [|c iso]; [contradiction|]. destruct utf8 as [|x utf8]; [contradiction|].
  cbn [List.length Nat.eqb orb]. rewrite wr_Ret by (cbn [List.length]; lia). cbn [bind upd].
  destruct (supported cp) eqn:Es; cbn [negb].
  2:{ exists 1, (0 :: utf8). split; [reflexivity|]. split; [reflexivity|]. split; [|split; [discriminate|eauto]].
      split; [discriminate|]. intros [Cp _]. apply supported_iff in Cp. congruence. }
  apply supported_iff in Es. destruct (to_utf cp (c :: iso)) as [s| |].
  - destruct s as [|y s].
    + exists 2, (0 :: utf8). split; [reflexivity|]. split; [reflexivity|]. split; [|split; [discriminate|eauto]].
      split; [discriminate|]. intros [_ [s [[= <-] N]]]. contradiction.
    + set (cs := c_str (y :: s)). replace (length (0%Z :: utf8) - 1)%nat with (length utf8) by (cbn [List.length]; lia).
      unfold strncpy. set (w := firstn (length utf8) (cs ++ repeat 0 (length utf8))).
      assert (Lw : length w = length utf8) by (unfold w; rewrite firstn_length_le; [reflexivity|rewrite app_length, repeat_length; lia]).
      rewrite put_Ret by (cbn [List.length]; lia). cbn [bind firstn app]. rewrite Lw.
      assert (Sk : exists z, skipn (0 + length utf8) (0 :: utf8) = [z]).
      { cbn [Nat.add]. clear. generalize 0 as y. induction utf8 as [|x u IH]; intro y; [now exists y|].
        cbn [List.length skipn]. apply IH. }
      destruct Sk as [z Sk].
      rewrite Sk. rewrite app_length, Lw. cbn [List.length]. replace (length utf8 + 1 - 1)%nat with (length utf8) by lia.
      rewrite wr_Ret by (rewrite app_length, Lw; cbn [List.length]; lia). cbn [bind]. rewrite upd_app by (symmetry; exact Lw).
      eexists. eexists. split; [reflexivity|]. split; [rewrite app_length, Lw; cbn [List.length]; lia|].
      split; [split; [intros _; split; [exact Es|exists (y :: s); split; [reflexivity|discriminate]]|reflexivity]|].
      split; [|intro H; now contradict H]. intros _ s1 t [= <-] Bn. apply before_nul_det in Bn. subst t. fold cs.
      replace (S (length utf8) - 1)%nat with (length utf8) by lia. unfold w. rewrite firstn_app.
      set (j := (length utf8 - length cs)%nat). exists (S j). split; [|lia]. rewrite <- app_assoc. f_equal.
      assert (Fr : firstn j (repeat 0 (length utf8)) = repeat 0 j).
      { assert (Hj : (j <= length utf8)%nat) by lia. clear -Hj. revert Hj. generalize (length utf8) as m. induction j as [|j IH]; intros [|m] H; try reflexivity; [lia|].
        cbn [repeat firstn]. rewrite IH by lia. reflexivity. }
      rewrite Fr. replace [0] with (repeat 0 1) by reflexivity. rewrite <- repeat_app. f_equal. lia.
  - exists (-2), (0 :: utf8). split; [reflexivity|]. split; [reflexivity|]. split; [|split; [discriminate|eauto]].
    split; [discriminate|]. intros [_ [s [H _]]]. discriminate.
  - exists 3, (0 :: utf8). split; [reflexivity|]. split; [reflexivity|]. split; [|split; [discriminate|eauto]].
    split; [discriminate|]. intros [_ [s [H _]]]. discriminate.
Qed.
Print Assumptions C146_boost_exact.
Example C146_ex : let f := fun _ _ => Text [0x35; 0xE2; 0x82; 0xAC] in
  to_utf8_boost f 15 [0x35; 0xA4] (repeat 7 6) = Ret (0, [0x35; 0xE2; 0x82; 0xAC; 0; 0]) /\
  to_utf8_boost (fun _ _ => Thrown) 15 [0x35] (repeat 7 3) = Ret (3, [0; 7; 7]).
Proof. split; reflexivity. Qed.

(** C147.  A text that does not fit is not cut inside a character.  Partial: iconv leaves whole characters, with an
    error. *)
Theorem C147_whole_partial : forall lib cp iso utf8 r b, utf8 <> [] -> iso <> [] -> code_page cp -> opens lib cp = true ->
  to_utf8_iconv lib cp iso utf8 = Ret (r, b) ->
  exists k us, converts lib cp (firstn k iso) us /\ b = concat us ++ skipn (length (concat us)) (0 :: tl utf8) /\
    ((k < length iso)%nat -> r = 2) /\ ((length iso <= k)%nat -> r = 0).
Proof.
  intros lib cp iso utf8 r b Nu Ni Cp Op. unfold to_utf8_iconv.
  destruct iso as [|c iso]; [contradiction|]. destruct utf8 as [|x utf8]; [contradiction|]. cbn [List.length Nat.eqb orb tl].
  rewrite wr_Ret by (cbn [List.length]; lia). cbn [bind upd]. apply supported_iff in Cp. rewrite Cp, Op. cbn [negb].
  destruct (loop_spec lib cp (c :: iso) [] (0 :: utf8)) as [ok [k [us [Er [Cv [Ln C]]]]]]. cbn [app List.length] in Er.
  rewrite Er. cbn [bind]. intro H. inversion H; subst. exists k, us. split; [exact Cv|]. split; [reflexivity|].
  cbn [List.length] in C. destruct ok; [split; [lia|reflexivity]|split; [reflexivity|lia]].
Qed.
Print Assumptions C147_whole_partial.
(** C147.  False of the boost implementation: the euro sign loses its last octet, and the result is 0. *)
Theorem C147_whole_refuted : exists to_utf cp iso utf8 b, to_utf cp iso = Text [0xE2; 0x82; 0xAC] /\
  to_utf8_boost to_utf cp iso utf8 = Ret (0, b) /\ b = [0xE2; 0x82; 0].
Proof. exists (fun _ _ => Text [0xE2; 0x82; 0xAC]), 15, [0xA4], [0; 0; 0], [0xE2; 0x82; 0]. repeat split. Qed.
Print Assumptions C147_whole_refuted.
Example C147_ex : to_utf8_iconv latin9 15 [0xA4; 0xA4] (repeat 0 4) = Ret (2, [0xE2; 0x82; 0xAC; 0]).
Proof. reflexivity. Qed.
