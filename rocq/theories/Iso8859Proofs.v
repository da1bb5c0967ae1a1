(** Lemmas for src/iso8859_simple.c. *)
From Verif Require Import Base BaseLemmas Iso8859Model Iso8859Spec.

Lemma high_octets c : 0x80 <= c < 256 ->
  Z.lor 0xC0 (Z.shiftr c 6) = 0xC0 + c / 64 /\ Z.lor 0x80 (Z.land c 0x3F) = 0x80 + c mod 64.
Proof.
  intro H. assert (B : is_byte c) by lia.
  pose proof (byte_sweep (fun c => ((c <? 0x80) || ((Z.lor 0xC0 (Z.shiftr c 6) =? 0xC0 + c / 64) &&
     (Z.lor 0x80 (Z.land c 0x3F) =? 0x80 + c mod 64)))%bool) ltac:(vm_compute; reflexivity) c B) as Q. cbv beta in Q.
  set (x := Z.lor 192 _) in *. set (y := Z.lor 128 _) in *. clearbody x y.
  split; destruct (c <? 128) eqn:E; cbn [orb] in Q; lia.
Qed.
Definition enc1 (c : Z) : list Z := if c <? 0x80 then [c] else [0xC0 + c / 64; 0x80 + c mod 64].
Lemma enc1_char c : graphic c -> utf8_char c (enc1 c).
Proof.
  intro G. unfold enc1, graphic in *. destruct (Z.ltb_spec c 0x80).
  - constructor. lia.
  - constructor; lia.
Qed.
Lemma utf8_text_enc cs : Forall graphic cs -> utf8_text cs (flat_map enc1 cs).
Proof. induction 1; cbn [flat_map]; constructor; auto. now apply enc1_char. Qed.

(** One character. *)
Lemma utf8_step c rest pre x y post : graphic c ->
  utf8_loop (c :: rest) (pre ++ x :: y :: post) (length pre) =
  if c <? 0x80 then utf8_loop rest (pre ++ c :: y :: post) (S (length pre))
  else utf8_loop rest (pre ++ 0xC0 + c / 64 :: 0x80 + c mod 64 :: post) (S (S (length pre))).
Proof.
  intro G. unfold graphic in G. cbn [utf8_loop].
  destruct (Z.eqb_spec c 0); [lia|].
  destruct (Nat.ltb_spec (length (pre ++ x :: y :: post) - length pre) 2) as [L|_].
  { rewrite app_length in L. cbn [length] in L. lia. }
  destruct (Z.ltb_spec c 32); [lia|]. cbn [orb].
  replace ((c >? 126) && (c <? 160))%bool with false by lia.
  destruct (Z.ltb_spec c 128).
  - rewrite wr_app by reflexivity. reflexivity.
  - destruct (high_octets c) as [-> ->]; [lia|].
    rewrite wr_app by reflexivity. cbn [bind].
    change (pre ++ 192 + c / 64 :: y :: post) with (pre ++ [192 + c / 64] ++ y :: post). rewrite app_assoc.
    rewrite wr_app by (rewrite app_length; cbn; lia). cbn [bind]. rewrite <- app_assoc. reflexivity.
Qed.

Lemma utf8_fits cs : Forall graphic cs -> forall pre old tail, (length (flat_map enc1 cs) < length old)%nat ->
  tail = [] \/ (exists t, tail = 0 :: t) ->
  utf8_loop (cs ++ tail) (pre ++ old) (length pre) =
  Ret (0, pre ++ flat_map enc1 cs ++ 0 :: skipn (S (length (flat_map enc1 cs))) old).
Proof.
  induction 1 as [|c cs G Gs IH]; intros pre old tail L T.
  - cbn [flat_map app length] in *. destruct old as [|x old]; [cbn in L; lia|].
    destruct T as [->|[t ->]]; cbn [app utf8_loop Z.eqb]; rewrite wr_app by reflexivity; reflexivity.
  - cbn [flat_map app] in *. rewrite app_length in L.
    assert (G' := G). unfold graphic in G'. unfold enc1 at 1 in L.
    destruct (c <? 128) eqn:E.
    + cbn [length] in L. destruct old as [|x [|y old]]; try (cbn [length] in L; lia).
      rewrite utf8_step by assumption. rewrite E.
      replace (pre ++ c :: y :: old) with ((pre ++ [c]) ++ y :: old) by (now rewrite <- app_assoc).
      replace (S (length pre)) with (length (pre ++ [c])) by (rewrite app_length; cbn; lia).
      rewrite IH by (auto; cbn [length] in *; lia). unfold enc1 at 3. rewrite E. rewrite <- app_assoc. cbn [app length].
      unfold enc1 at 4. rewrite E. reflexivity.
    + cbn [length] in L. destruct old as [|x [|y old]]; try (cbn [length] in L; lia).
      rewrite utf8_step by assumption. rewrite E.
      replace (pre ++ 192 + c / 64 :: 128 + c mod 64 :: old) with ((pre ++ [192 + c / 64; 128 + c mod 64]) ++ old) by (now rewrite <- app_assoc).
      replace (S (S (length pre))) with (length (pre ++ [192 + c / 64; 128 + c mod 64])) by (rewrite app_length; cbn; lia).
      rewrite IH by (auto; cbn [length] in *; lia). unfold enc1 at 3. rewrite E. rewrite <- app_assoc. cbn [app length].
      unfold enc1 at 4. rewrite E. reflexivity.
Qed.

(** The exact conversion. *)
Lemma utf8_exact cs tail utf8 u : Forall graphic cs -> (1 <= length (cs ++ tail))%nat ->
  tail = [] \/ (exists t, tail = 0 :: t) -> utf8_text cs u -> (length u < length utf8)%nat ->
  iso8859_to_utf8 1 (cs ++ tail) utf8 = Ret (0, u ++ 0 :: skipn (S (length u)) utf8).
Proof.
  intros G L1 T U L.
  assert (Eu : u = flat_map enc1 cs).
  { clear -U G. induction U as [|c l cs ls Hc Hs IH]; [reflexivity|]. inversion G; subst. cbn [flat_map].
    rewrite IH by assumption. f_equal. unfold enc1. inversion Hc; subst.
    - destruct (Z.ltb_spec c 128); [reflexivity|lia].
    - destruct (Z.ltb_spec (hi * 64 + lo) 128); [lia|]. f_equal; [lia|f_equal; lia]. }
  subst u. unfold iso8859_to_utf8.
  destruct (Nat.eqb_spec (length (cs ++ tail)) 0); [lia|]. destruct (Nat.eqb_spec (length utf8) 0); [lia|]. cbn [orb].
  destruct utf8 as [|x utf8]; [cbn in L; lia|].
  change (wr (x :: utf8) 0 0) with (Ret (0 :: utf8) : out (list Z)). cbn [bind iso8859_is_supported Z.eqb Pos.eqb negb].
  change 0%nat with (length (@nil Z)). change (0 :: utf8) with ([] ++ 0 :: utf8).
  rewrite utf8_fits by (auto; cbn [length] in *; lia). cbn [app]. f_equal.
Qed.

(** Anything into a buffer of more than twice the size. *)
Lemma utf8_loop_safe iso : forall buf idx, bytes iso -> (idx + 2 * length iso < length buf)%nat ->
  exists r b, utf8_loop iso buf idx = Ret (r, b) /\ length b = length buf /\ (r = 0 \/ r = 2).
Proof.
  assert (Fin : forall (buf : list Z) idx, (idx < length buf)%nat ->
    exists r b, (let* buf := wr buf idx 0 in Ret (0, buf)) = Ret (r, b) /\ length b = length buf /\ (r = 0 \/ r = 2)).
  { intros buf idx L. rewrite wr_Ret by assumption. cbn [bind]. do 2 eexists. split; [reflexivity|].
    split; [apply upd_length|auto]. }
  induction iso as [|c iso IH]; intros buf idx B L; cbn [utf8_loop].
  - apply Fin. cbn [length] in L. lia.
  - apply Forall_cons_iff in B as [Bc B]. cbn [length] in L.
    destruct (c =? 0); [apply Fin; lia|].
    destruct (length buf - idx <? 2)%nat; [apply Fin; lia|].
    match goal with |- context [if ?b then Ret (2, buf) else _] => destruct b end.
    { exists 2, buf. auto. }
    destruct (c <? 128).
    + rewrite wr_Ret by lia. cbn [bind]. destruct (IH (upd buf idx c) (S idx)) as (r & b & E & Lb & R); [assumption|rewrite upd_length; lia|].
      exists r, b. rewrite upd_length in Lb. auto.
    + rewrite wr_Ret by lia. cbn [bind]. rewrite wr_Ret by (rewrite upd_length; lia). cbn [bind].
      match goal with |- context [utf8_loop iso ?bb ?i] => destruct (IH bb i) as (r & b & E & Lb & R); [assumption|rewrite !upd_length; lia|] end.
      exists r, b. rewrite !upd_length in Lb. auto.
Qed.
Lemma utf8_safe cp iso utf8 : bytes iso -> (2 * length iso < length utf8)%nat ->
  exists r b, iso8859_to_utf8 cp iso utf8 = Ret (r, b) /\ length b = length utf8.
Proof.
  intros B L. unfold iso8859_to_utf8.
  destruct ((length iso =? 0)%nat || (length utf8 =? 0)%nat)%bool eqn:E0; [eauto|].
  rewrite wr_Ret by lia. cbn [bind]. destruct (negb (iso8859_is_supported cp)).
  - do 2 eexists. split; [reflexivity|apply upd_length].
  - destruct (utf8_loop_safe iso (upd utf8 0 0) 0) as (r & b & E & Lb & _); [assumption|rewrite upd_length; lia|].
    exists r, b. rewrite upd_length in Lb. auto.
Qed.

(** ASCII only: safe for every size. *)
Lemma utf8_ascii_safe iso : Forall (fun c => 0 <= c < 0x80) iso -> forall buf idx, (idx < length buf)%nat ->
  exists r b, utf8_loop iso buf idx = Ret (r, b) /\ length b = length buf.
Proof.
  assert (Fin : forall (buf : list Z) idx, (idx < length buf)%nat ->
    exists r b, (let* buf := wr buf idx 0 in Ret (0, buf)) = Ret (r, b) /\ length b = length buf).
  { intros buf idx L. rewrite wr_Ret by assumption. cbn [bind]. do 2 eexists. split; [reflexivity|]. apply upd_length. }
  induction 1 as [|c iso Hc Hs IH]; intros buf idx L; cbn [utf8_loop].
  - apply Fin. lia.
  - destruct (c =? 0); [apply Fin; lia|].
    destruct (Nat.ltb_spec (length buf - idx) 2); [apply Fin; lia|].
    match goal with |- context [if ?b then Ret (2, buf) else _] => destruct b end; [eauto|].
    destruct (Z.ltb_spec c 128); [|lia].
    rewrite wr_Ret by lia. cbn [bind]. destruct (IH (upd buf idx c) (S idx)) as (r & b & E & Lb); [rewrite upd_length; lia|].
    exists r, b. rewrite upd_length in Lb. auto.
Qed.

(** Exactly when the terminator falls outside: graphic text whose UTF-8 length is
    the buffer size, ending in a two-octet character. *)
Lemma utf8_overflow cs c utf8 : Forall graphic cs -> 0xA0 <= c <= 0xFF ->
  length (flat_map enc1 (cs ++ [c])) = length utf8 -> iso8859_to_utf8 1 (cs ++ [c]) utf8 = UB.
Proof.
  intros G Hc L. rewrite flat_map_app, app_length in L. cbn [flat_map] in L. rewrite app_nil_r in L.
  assert (E1 : length (enc1 c) = 2%nat) by (unfold enc1; destruct (Z.ltb_spec c 128); [lia|reflexivity]).
  unfold iso8859_to_utf8. destruct (Nat.eqb_spec (length (cs ++ [c])) 0) as [E|_]; [rewrite app_length in E; cbn in E; lia|].
  destruct (Nat.eqb_spec (length utf8) 0); [lia|]. cbn [orb]. rewrite wr_Ret by lia.
  cbn [bind iso8859_is_supported Z.eqb Pos.eqb negb].
  assert (Go : forall cs, Forall graphic cs -> forall pre old, (length (flat_map enc1 cs) + 2)%nat = length old ->
     utf8_loop (cs ++ [c]) (pre ++ old) (length pre) = UB).
  { clear -Hc. induction 1 as [|d cs G Gs IH]; intros pre old L.
    - cbn [flat_map length app] in *. destruct old as [|x [|y [|]]]; try discriminate.
      rewrite utf8_step by (unfold graphic; lia). destruct (Z.ltb_spec c 128); [lia|]. cbn [utf8_loop].
      unfold wr. match goal with |- context [Nat.ltb ?a ?b] => destruct (Nat.ltb_spec a b) as [Q|Q] end; [|reflexivity].
      rewrite app_length in Q. cbn [length] in Q. lia.
    - cbn [flat_map app] in *. rewrite app_length in L. assert (G' := G). unfold enc1 at 1 in L.
      destruct (d <? 128) eqn:E; cbn [length] in L; (destruct old as [|x [|y old]]; try (cbn [length] in L; lia));
        rewrite utf8_step by assumption; rewrite E.
      + replace (pre ++ d :: y :: old) with ((pre ++ [d]) ++ y :: old) by (now rewrite <- app_assoc).
        replace (S (length pre)) with (length (pre ++ [d])) by (rewrite app_length; cbn; lia).
        apply IH. cbn [length] in *. lia.
      + replace (pre ++ 192 + d / 64 :: 128 + d mod 64 :: old) with ((pre ++ [192 + d / 64; 128 + d mod 64]) ++ old) by (now rewrite <- app_assoc).
        replace (S (S (length pre))) with (length (pre ++ [192 + d / 64; 128 + d mod 64])) by (rewrite app_length; cbn; lia).
        apply IH. cbn [length] in *. lia. }
  change (upd utf8 0 0) with ([] ++ upd utf8 0 0). change 0%nat with (length (@nil Z)) at 2.
  apply Go; [assumption|]. rewrite upd_length. lia.
Qed.

(** A control character among the characters that fit is an error. *)
Lemma utf8_control cs c rest utf8 : Forall graphic cs -> is_byte c -> c <> 0 -> ~ graphic c ->
  (length (flat_map enc1 cs) + 2 <= length utf8)%nat ->
  exists b, iso8859_to_utf8 1 (cs ++ c :: rest) utf8 = Ret (2, b) /\ length b = length utf8.
Proof.
  intros G Bc C0 NG L.
  unfold iso8859_to_utf8. destruct (Nat.eqb_spec (length (cs ++ c :: rest)) 0) as [E|_]; [rewrite app_length in E; cbn in E; lia|].
  destruct (Nat.eqb_spec (length utf8) 0); [lia|]. cbn [orb]. rewrite wr_Ret by lia.
  cbn [bind iso8859_is_supported Z.eqb Pos.eqb negb].
  assert (Go : forall cs, Forall graphic cs -> forall pre old, (length (flat_map enc1 cs) + 2 <= length old)%nat ->
     exists b, utf8_loop (cs ++ c :: rest) (pre ++ old) (length pre) = Ret (2, b) /\ length b = length (pre ++ old)).
  { clear -Bc C0 NG. induction 1 as [|d cs G Gs IH]; intros pre old L.
    - cbn [flat_map length app] in *. cbn [utf8_loop]. destruct (Z.eqb_spec c 0); [contradiction|].
      destruct (Nat.ltb_spec (length (pre ++ old) - length pre) 2) as [Q|_]; [rewrite app_length in Q; lia|].
      replace ((c <? 32) || (c >? 126) && (c <? 160))%bool with true by (unfold graphic in NG; lia). eauto.
    - cbn [flat_map app] in *. rewrite app_length in L. assert (G' := G). unfold enc1 at 1 in L.
      destruct (d <? 128) eqn:E; cbn [length] in L; (destruct old as [|x [|y old]]; try (cbn [length] in L; lia));
        rewrite utf8_step by assumption; rewrite E.
      + replace (pre ++ d :: y :: old) with ((pre ++ [d]) ++ y :: old) by (now rewrite <- app_assoc).
        replace (S (length pre)) with (length (pre ++ [d])) by (rewrite app_length; cbn; lia).
        destruct (IH (pre ++ [d]) (y :: old)) as (b & E1 & E2); [cbn [length] in *; lia|]. exists b. split; [assumption|].
        rewrite E2, !app_length. cbn. lia.
      + replace (pre ++ 192 + d / 64 :: 128 + d mod 64 :: old) with ((pre ++ [192 + d / 64; 128 + d mod 64]) ++ old) by (now rewrite <- app_assoc).
        replace (S (S (length pre))) with (length (pre ++ [192 + d / 64; 128 + d mod 64])) by (rewrite app_length; cbn; lia).
        destruct (IH (pre ++ [192 + d / 64; 128 + d mod 64]) old) as (b & E1 & E2); [cbn [length] in *; lia|]. exists b. split; [assumption|].
        rewrite E2, !app_length. cbn. lia. }
  destruct (Go cs G [] (upd utf8 0 0)) as (b & E1 & E2); [rewrite upd_length; lia|].
  exists b. split; [exact E1|]. rewrite E2. apply upd_length.
Qed.
