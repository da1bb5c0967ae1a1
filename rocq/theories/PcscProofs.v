(** Proofs about the PC/SC model. *)
From Verif Require Import Base BaseLemmas BerSpec PcscModel PcscSpec.

Lemma Zlen_app' {A} (a b : list A) : Zlen (a ++ b) = Zlen a + Zlen b.
Proof. unfold Zlen. rewrite app_length. lia. Qed.
Lemma Zlen_cons' {A} (x : A) b : Zlen (x :: b) = 1 + Zlen b.
Proof. unfold Zlen. cbn [length]. lia. Qed.
Lemma Zlen_nonneg' {A} (b : list A) : 0 <= Zlen b.
Proof. unfold Zlen. lia. Qed.

Lemma rd_at {A} (pre : list A) x post : rd (pre ++ x :: post) (length pre) = Ret x.
Proof. unfold rd. rewrite nth_error_app2, Nat.sub_diag by lia. reflexivity. Qed.
Lemma rd_at1 {A} (pre : list A) x y post :
  rd (pre ++ x :: y :: post) (length pre + 1) = Ret y.
Proof.
  unfold rd. rewrite nth_error_app2 by lia.
  replace (length pre + 1 - length pre)%nat with 1%nat by lia. reflexivity.
Qed.
Lemma sub_at2 {A} (pre : list A) x y v post :
  sub (pre ++ x :: y :: v ++ post) (length pre + 2) (length v) = Ret v.
Proof.
  unfold sub. rewrite !app_length. cbn [length]. rewrite app_length.
  destruct (Nat.leb_spec (length pre + 2 + length v)
    (length pre + S (S (length v + length post)))); [|lia].
  f_equal. rewrite skipn_app, skipn_all2 by lia.
  replace (length pre + 2 - length pre)%nat with 2%nat by lia. cbn [app skipn].
  rewrite firstn_app, firstn_all, Nat.sub_diag. cbn [firstn]. apply app_nil_r.
Qed.

Section Props.
Variables (p : Z) (value : list Z) (vlen : Z).

Lemma prop_loop_skip es : forall fuel pre rest tail,
  ~ In p (map fst es) -> Forall (fun e => Zlen (snd e) < 256) es ->
  Zlen (enc_props es ++ rest) < 18446744073709551616 ->
  prop_loop (length es + fuel) (pre ++ enc_props es ++ rest ++ tail) (length pre)
    (Zlen (enc_props es ++ rest)) p value vlen
  = prop_loop fuel (pre ++ enc_props es ++ rest ++ tail)
      (length (pre ++ enc_props es)) (Zlen rest) p value vlen.
Proof using.
  induction es as [|[t v] es IH]; intros fuel pre rest tail Hn Hs Hl.
  - cbn [enc_props flat_map app]. rewrite app_nil_r. reflexivity.
  - cbn [length plus prop_loop]. cbn [enc_props flat_map fst snd] in *.
    change (flat_map (fun e : Z * list Z => fst e :: Zlen (snd e) :: snd e) es)
      with (enc_props es) in *.
    inversion Hs as [|? ? Hv Hs']; subst. cbn [snd] in Hv.
    cbn [map fst In] in Hn.
    assert (Ht : t <> p) by (intro; apply Hn; left; assumption).
    assert (Hn' : ~ In p (map fst es)) by (intro; apply Hn; right; assumption).
    pose proof (Zlen_nonneg' v). pose proof (Zlen_nonneg' rest).
    pose proof (Zlen_nonneg' (enc_props es)).
    repeat rewrite <- app_comm_cons in *. rewrite !Zlen_cons', !Zlen_app' in Hl.
    rewrite !Zlen_cons', !Zlen_app'.
    destruct (Z.leb_spec 2 (1 + (1 + (Zlen v + Zlen (enc_props es) + Zlen rest)))); [|lia].
    rewrite rd_at. cbn [bind]. destruct (Z.eqb_spec t p); [contradiction|].
    rewrite rd_at1. cbn [bind].
    specialize (IH fuel (pre ++ t :: Zlen v :: v) rest tail Hn' Hs').
    rewrite <- !app_assoc in IH. repeat rewrite <- app_comm_cons in IH.
    rewrite <- !app_assoc.
    replace (length pre + 2 + Z.to_nat (Zlen v))%nat
      with (length (pre ++ t :: Zlen v :: v)).
    2:{ unfold Zlen. rewrite app_length. cbn [length]. lia. }
    replace (u64 _) with (Zlen (enc_props es ++ rest)).
    2:{ unfold u64. rewrite Zlen_app', Z.mod_small; lia. }
    rewrite IH; [|rewrite Zlen_app'; lia].
    reflexivity.
Qed.

Lemma prop_loop_skip0 es fuel rest tail :
  ~ In p (map fst es) -> Forall (fun e => Zlen (snd e) < 256) es ->
  Zlen (enc_props es ++ rest) < 18446744073709551616 ->
  prop_loop (length es + fuel) ((enc_props es ++ rest) ++ tail) 0
    (Zlen (enc_props es ++ rest)) p value vlen
  = prop_loop fuel (enc_props es ++ rest ++ tail)
      (length (enc_props es)) (Zlen rest) p value vlen.
Proof using.
  intros A B C. rewrite <- app_assoc. apply (prop_loop_skip es fuel [] rest tail A B C).
Qed.
End Props.

Lemma enc_props_len es : (2 * length es <= length (enc_props es))%nat.
Proof.
  induction es as [|[t v] es IH]; [cbn; lia|].
  cbn [enc_props flat_map fst snd length app]. rewrite app_length.
  change (flat_map (fun e : Z * list Z => fst e :: Zlen (snd e) :: snd e) es)
    with (enc_props es). lia.
Qed.

(** What follows the property list in the look up. *)
Definition after (f : features) (p : Z) (value : list Z) (vlen : Z) : Z * list Z * Z :=
  let word w err := if vlen <? 2 then (err, value, 0) else (0, w ++ skipn 2 value, 2) in
  if negb (f_pin_len f =? 0) && (p =? 0x01) then word (firstn 2 (f_pin f)) (-4)
  else if negb (f_disp_len f =? 0) && (p =? 0x04) then word (firstn 2 (f_disp f)) (-5)
  else if negb (f_disp_len f =? 0) && (p =? 0x05) then word (skipn 2 (f_disp f)) (-6)
  else (1, value, 0).

Lemma put_0 (value v : list Z) : (length v <= length value)%nat ->
  put value 0 v = Ret (v ++ skipn (length v) value).
Proof.
  intros H. unfold put. cbn [plus firstn app].
  destruct (Nat.leb_spec (length v) (length value)); [reflexivity|lia].
Qed.

Lemma get_word_eq w err value vlen : length w = 2%nat -> vlen <= Zlen value ->
  get_word w err value vlen
  = Ret (if vlen <? 2 then (err, value, 0) else (0, w ++ skipn 2 value, 2)).
Proof.
  intros Hw Hv. unfold get_word, Zlen. rewrite Hw. change (Z.of_nat 2) with 2.
  destruct (Z.ltb_spec vlen 2); [reflexivity|].
  unfold Zlen in Hv. rewrite put_0 by lia. rewrite Hw. reflexivity.
Qed.

Lemma after_eq f p value vlen : feat_ok f -> vlen <= Zlen value ->
  (if negb (f_pin_len f =? 0) && (p =? PROPERTY_wLcdLayout) then
      let* w := sub (f_pin f) 0 2 in get_word w (-4) value vlen
    else if negb (f_disp_len f =? 0) && (p =? PROPERTY_wLcdMaxCharacters) then
      let* w := sub (f_disp f) 0 2 in get_word w (-5) value vlen
    else if negb (f_disp_len f =? 0) && (p =? PROPERTY_wLcdMaxLines) then
      let* w := sub (f_disp f) 2 2 in get_word w (-6) value vlen
    else Ret (1, value, 0)) = Ret (after f p value vlen).
Proof.
  intros (_ & _ & P & D & _) Hv.
  unfold after, PROPERTY_wLcdLayout, PROPERTY_wLcdMaxCharacters, PROPERTY_wLcdMaxLines.
  unfold sub. rewrite P, D. cbn [Nat.add Nat.leb bind].
  change (skipn 0 (f_pin f)) with (f_pin f). change (skipn 0 (f_disp f)) with (f_disp f).
  do 3 (match goal with |- context[if ?b then _ else _] => destruct b end;
    [rewrite get_word_eq by (rewrite ?firstn_length, ?skipn_length; lia);
     try reflexivity|]); try reflexivity.
  rewrite firstn_all2 by (rewrite skipn_length; lia). reflexivity.
Qed.

(** The list a reader gave is the part of the array in use. *)
Definition given (arr : list Z) (len : Z) (l : list Z) : Prop :=
  exists tail, arr = l ++ tail /\ len = Zlen l.

Lemma get_property_found f p value vlen es v rest : feat_ok f ->
  given (f_props f) (f_props_len f) (enc_props es ++ (p :: Zlen v :: v) ++ rest) ->
  ~ In p (map fst es) -> Forall (fun e => Zlen (snd e) < 256) es ->
  Zlen v < 256 -> vlen <= Zlen value ->
  get_property f p value vlen
  = Ret (if Zlen v <=? vlen then (0, v ++ skipn (length v) value, Zlen v)
         else (-3, value, 0)).
Proof.
  intros OK (tail & E & L) Hn Hs Hv Hc. unfold get_property.
  destruct OK as (_ & _ & _ & _ & Hlen & Hrange).
  rewrite E in *. rewrite L in *.
  pose proof (enc_props_len es) as He.
  set (n := length ((enc_props es ++ (p :: Zlen v :: v) ++ rest) ++ tail)) in *.
  assert (Hf : exists k, S n = (length es + S k)%nat).
  { exists (n - length es)%nat. unfold n. rewrite !app_length. lia. }
  destruct Hf as [k ->].
  rewrite prop_loop_skip0 by (try assumption; lia).
  cbn [app]. cbn [prop_loop].
  pose proof (Zlen_nonneg' v). pose proof (Zlen_nonneg' rest).
  rewrite !Zlen_cons', Zlen_app'.
  destruct (Z.leb_spec 2 (1 + (1 + (Zlen v + Zlen rest)))); [|lia].
  rewrite rd_at. cbn [bind]. rewrite Z.eqb_refl, rd_at1. cbn [bind].
  destruct (Z.ltb_spec (1 + (1 + (Zlen v + Zlen rest)) - 2) (Zlen v)); [lia|].
  destruct (Z.ltb_spec vlen (Zlen v)); destruct (Z.leb_spec (Zlen v) vlen); try lia;
    [reflexivity|].
  replace (Z.to_nat (Zlen v)) with (length v) by (unfold Zlen; lia).
  rewrite <- app_assoc, sub_at2. cbn [bind].
  unfold Zlen in *. rewrite put_0 by lia. reflexivity.
Qed.

Lemma get_property_cut f p value vlen es n rest : feat_ok f ->
  given (f_props f) (f_props_len f) (enc_props es ++ p :: n :: rest) ->
  ~ In p (map fst es) -> Forall (fun e => Zlen (snd e) < 256) es ->
  Zlen rest < n ->
  get_property f p value vlen = Ret (-2, value, 0).
Proof.
  intros OK (tail & E & L) Hn Hs Hv. unfold get_property.
  destruct OK as (_ & _ & _ & _ & Hlen & Hrange).
  rewrite E in *. rewrite L in *.
  pose proof (enc_props_len es) as He.
  set (m := length ((enc_props es ++ p :: n :: rest) ++ tail)) in *.
  assert (Hf : exists k, S m = (length es + S k)%nat).
  { exists (m - length es)%nat. unfold m. rewrite !app_length. lia. }
  destruct Hf as [k ->].
  rewrite prop_loop_skip0 by (try assumption; lia).
  cbn [app]. cbn [prop_loop]. pose proof (Zlen_nonneg' rest).
  rewrite !Zlen_cons'.
  destruct (Z.leb_spec 2 (1 + (1 + (Zlen rest)))); [|lia].
  rewrite rd_at. cbn [bind]. rewrite Z.eqb_refl, rd_at1. cbn [bind].
  destruct (Z.ltb_spec (1 + (1 + (Zlen rest)) - 2) n); [reflexivity|lia].
Qed.

Lemma get_property_absent f p value vlen es rest : feat_ok f ->
  given (f_props f) (f_props_len f) (enc_props es ++ rest) ->
  ~ In p (map fst es) -> Forall (fun e => Zlen (snd e) < 256) es ->
  Zlen rest < 2 -> vlen <= Zlen value ->
  get_property f p value vlen = Ret (after f p value vlen).
Proof.
  intros OK (tail & E & L) Hn Hs Hv Hc. unfold get_property.
  pose proof (after_eq f p value vlen OK Hc) as HA.
  destruct OK as (_ & _ & _ & _ & Hlen & Hrange).
  rewrite E in *. rewrite L in *.
  pose proof (enc_props_len es) as He.
  set (m := length ((enc_props es ++ rest) ++ tail)) in *.
  assert (Hf : exists k, S m = (length es + S k)%nat).
  { exists (m - length es)%nat. unfold m. rewrite !app_length. lia. }
  destruct Hf as [k ->].
  rewrite prop_loop_skip0 by (try assumption; lia).
  cbn [prop_loop].
  destruct (Z.leb_spec 2 (Zlen rest)); [lia|]. cbn [bind]. exact HA.
Qed.

(** Every list is one of: elements and at most one more octet, or elements and
    then an element that is cut short. *)
Lemma props_shape l : bytes l -> exists es rest,
  l = enc_props es ++ rest /\ Forall (fun e => Zlen (snd e) < 256) es /\
  (Zlen rest < 2 \/ exists t n q, rest = t :: n :: q /\ Zlen q < n).
Proof.
  remember (length l) as k eqn:K. assert (Hk : (length l <= k)%nat) by lia. clear K.
  revert l Hk. induction k as [|k IH]; intros l Hk B.
  - destruct l; [|cbn in Hk; lia]. exists [], []. split; [reflexivity|].
    split; [constructor|]. left. unfold Zlen. cbn. lia.
  - destruct l as [|t [|n q]].
    + exists [], []. split; [reflexivity|]. split; [constructor|]. left. unfold Zlen. cbn. lia.
    + exists [], [t]. split; [reflexivity|]. split; [constructor|]. left. unfold Zlen. cbn. lia.
    + destruct (Z.ltb_spec (Zlen q) n).
      * exists [], (t :: n :: q). split; [reflexivity|]. split; [constructor|].
        right. exists t, n, q. split; [reflexivity|assumption].
      * unfold bytes in B. inversion B as [|? ? B1 B2]; subst.
        inversion B2 as [|? ? B3 B4]; subst. unfold is_byte in B3.
        assert (Hq : length (firstn (Z.to_nat n) q) = Z.to_nat n)
          by (rewrite firstn_length; unfold Zlen in *; lia).
        destruct (IH (skipn (Z.to_nat n) q)) as (es & rest & E & F & R).
        { rewrite skipn_length. cbn [length] in Hk. lia. }
        { apply bytes_skipn. exact B4. }
        exists ((t, firstn (Z.to_nat n) q) :: es), rest.
        split; [|split; [constructor; [|exact F]|exact R]].
        -- cbn [enc_props flat_map fst snd]. fold (enc_props es).
           change (flat_map (fun e : Z * list Z => fst e :: Zlen (snd e) :: snd e) es)
             with (enc_props es).
           unfold Zlen at 1. rewrite Hq, Z2Nat.id by lia.
           cbn [app]. rewrite <- app_assoc, <- E, firstn_skipn. reflexivity.
        -- cbn [snd]. unfold Zlen. rewrite Hq. lia.
Qed.

(** When the array holds no more than the list, the look up leaves the list
    exactly when a cut element of another tag is met. *)
Lemma prop_loop_leaves es p value vlen t n q : ~ In p (map fst es) ->
  Forall (fun e => Zlen (snd e) < 256) es -> t <> p -> Zlen q < n -> n < 256 ->
  Zlen (enc_props es ++ t :: n :: q) < 18446744073709551616 - 256 ->
  let l := enc_props es ++ t :: n :: q in
  prop_loop (S (length l)) l 0 (Zlen l) p value vlen = UB.
Proof.
  intros Hn Hs Ht Hq H256 Hl l.
  pose proof (enc_props_len es) as He.
  assert (Hf : exists k, S (length l) = (length es + S (S k))%nat).
  { exists (length l - length es - 1)%nat. unfold l. rewrite !app_length.
    cbn [length]. lia. }
  destruct Hf as [k ->].
  pose proof (Zlen_nonneg' q).
  rewrite <- (app_nil_r l) at 1. unfold l.
  rewrite prop_loop_skip0 by (try assumption; lia).
  rewrite app_nil_r. cbn [prop_loop].
  rewrite !Zlen_cons'.
  destruct (Z.leb_spec 2 (1 + (1 + Zlen q))); [|lia].
  rewrite rd_at. cbn [bind]. destruct (Z.eqb_spec t p); [contradiction|].
  rewrite rd_at1. cbn [bind].
  destruct (Z.leb_spec 2 (u64 (1 + (1 + Zlen q) - (2 + n)))) as [|Hc].
  2:{ exfalso. unfold u64 in Hc.
      replace (1 + (1 + Zlen q) - (2 + n))
        with ((18446744073709551616 + Zlen q - n) + (-1) * 18446744073709551616) in Hc by lia.
      rewrite Z.mod_add in Hc by lia. rewrite Z.mod_small in Hc by lia. lia. }
  unfold rd. match goal with |- context[nth_error ?a ?b] =>
    assert (X : nth_error a b = None) end.
  { apply nth_error_None. rewrite app_length. cbn [length]. unfold Zlen in *. lia. }
  rewrite X. reflexivity.
Qed.

(** ** Features *)

Lemma enc_features_len es : Forall fentry_ok es ->
  length (enc_features es) = (6 * length es)%nat.
Proof.
  induction 1 as [|e es H _ IH]; [reflexivity|].
  cbn [enc_features flat_map length app].
  change (flat_map (fun e : fentry => fe_tag e :: fe_len e :: fe_code e) es)
    with (enc_features es).
  rewrite app_length. unfold fentry_ok in H. lia.
Qed.

Lemma enc_features_cons e es : enc_features (e :: es)
  = fe_tag e :: fe_len e :: fe_code e ++ enc_features es.
Proof. reflexivity. Qed.

Lemma has_loop_spec es : forall fuel pre tail x,
  Forall fentry_ok es -> (length es < fuel)%nat ->
  has_loop fuel (pre ++ enc_features es ++ tail)
    (Z.of_nat (length pre) + Zlen (enc_features es)) (length pre) x
  = Ret (existsb (fun e => fe_tag e =? x) es).
Proof.
  induction es as [|e es IH]; intros fuel pre tail x F Hf;
    (destruct fuel as [|fuel]; [cbn [length] in Hf; lia|]); cbn [has_loop].
  - cbn [enc_features flat_map]. unfold Zlen. cbn [length].
    destruct (Z.ltb_spec (Z.of_nat (length pre)) (Z.of_nat (length pre) + Z.of_nat 0)); [lia|].
    reflexivity.
  - inversion F as [|? ? He F']; subst.
    rewrite enc_features_cons. repeat rewrite <- app_comm_cons.
    pose proof (Zlen_nonneg' (fe_code e ++ enc_features es)).
    rewrite !Zlen_cons'.
    match goal with |- context[?a <? ?b] => destruct (Z.ltb_spec a b); [|lia] end.
    rewrite rd_at. cbn [bind existsb].
    destruct (fe_tag e =? x); [reflexivity|]. cbn [orb].
    cbn [length] in Hf.
    specialize (IH fuel (pre ++ fe_tag e :: fe_len e :: fe_code e) tail x F').
    rewrite <- IH by lia. unfold fentry_ok in He.
    rewrite !app_length. cbn [length]. rewrite He, Zlen_app'.
    rewrite <- !app_assoc. repeat rewrite <- app_comm_cons.
    replace (length pre + 6)%nat with (length pre + S (S 4))%nat by lia.
    f_equal. unfold Zlen. rewrite He. lia.
Qed.

Lemma feature_loop_spec es : forall fuel pre tail x,
  Forall fentry_ok es -> (length es < fuel)%nat ->
  feature_loop fuel (pre ++ enc_features es ++ tail)
    (Z.of_nat (length pre) + Zlen (enc_features es)) (length pre) x
  = Ret (option_map (fun e => be (fe_code e))
           (find (fun e => (fe_tag e =? x) && (fe_len e =? 4)) es)).
Proof.
  induction es as [|e es IH]; intros fuel pre tail x F Hf;
    (destruct fuel as [|fuel]; [cbn [length] in Hf; lia|]); cbn [feature_loop].
  - cbn [enc_features flat_map]. unfold Zlen. cbn [length].
    destruct (Z.ltb_spec (Z.of_nat (length pre)) (Z.of_nat (length pre) + Z.of_nat 0)); [lia|].
    reflexivity.
  - inversion F as [|? ? He F']; subst.
    assert (IH' : feature_loop fuel (pre ++ enc_features (e :: es) ++ tail)
      (Z.of_nat (length pre) + Zlen (enc_features (e :: es))) (length pre + 6) x
      = Ret (option_map (fun e => be (fe_code e))
           (find (fun e => (fe_tag e =? x) && (fe_len e =? 4)) es))).
    { cbn [length] in Hf.
      specialize (IH fuel (pre ++ fe_tag e :: fe_len e :: fe_code e) tail x F').
      rewrite <- IH by lia. unfold fentry_ok in He.
      rewrite enc_features_cons. repeat rewrite <- app_comm_cons. rewrite !Zlen_cons'.
      rewrite !app_length. cbn [length]. rewrite He, Zlen_app'.
      rewrite <- !app_assoc. repeat rewrite <- app_comm_cons.
      replace (length pre + 6)%nat with (length pre + S (S 4))%nat by lia.
      f_equal. unfold Zlen. rewrite He. lia. }
    rewrite !IH'. clear IH IH'.
    rewrite enc_features_cons. repeat rewrite <- app_comm_cons.
    pose proof (Zlen_nonneg' (fe_code e ++ enc_features es)).
    rewrite !Zlen_cons'.
    match goal with |- context[?a <? ?b] => destruct (Z.ltb_spec a b); [|lia] end.
    rewrite rd_at. cbn [bind find].
    destruct (fe_tag e =? x); cbn [andb]; [|reflexivity].
    rewrite rd_at1. cbn [bind]. destruct (fe_len e =? 4); [|reflexivity].
    unfold fentry_ok in He. rewrite <- He, <- app_assoc, sub_at2. reflexivity.
Qed.

Lemma has_feature_spec f es x : feat_ok f ->
  given (f_buf f) (f_buf_len f) (enc_features es) -> Forall fentry_ok es ->
  has_feature f x = Ret (existsb (fun e => fe_tag e =? x) es).
Proof.
  intros (Hb & _) (tail & E & L) F. unfold has_feature.
  pose proof (enc_features_len es F) as Hl.
  destruct (Z.eqb_spec (f_buf_len f) 0) as [Z0|Z0].
  - destruct es; [reflexivity|]. exfalso. unfold Zlen in L. rewrite Hl in L. cbn [length] in L. lia.
  - rewrite E, L. apply (has_loop_spec es _ [] tail x F).
    rewrite app_length. lia.
Qed.
Lemma get_feature_spec f es x : feat_ok f ->
  given (f_buf f) (f_buf_len f) (enc_features es) -> Forall fentry_ok es ->
  get_feature f x = Ret (option_map (fun e => be (fe_code e))
    (find (fun e => (fe_tag e =? x) && (fe_len e =? 4)) es)).
Proof.
  intros (Hb & _) (tail & E & L) F. unfold get_feature.
  pose proof (enc_features_len es F) as Hl.
  destruct (Z.eqb_spec (f_buf_len f) 0) as [Z0|Z0].
  - destruct es; [reflexivity|]. exfalso. unfold Zlen in L. rewrite Hl in L. cbn [length] in L. lia.
  - rewrite E, L. apply (feature_loop_spec es _ [] tail x F).
    rewrite app_length. lia.
Qed.

Section Any.
Variables (buf : list Z) (len : Z).
Hypothesis (Hb : length buf = 264%nat) (Hlen : len <= 264).
Lemma has_loop_total x : forall fuel k, (44 < fuel + k)%nat -> (k <= 44)%nat ->
  exists b, has_loop fuel buf len (6 * k) x = Ret b.
Proof using Hb Hlen.
  induction fuel as [|fuel IH]; intros k H H'; [lia|]. cbn [has_loop].
  destruct (Z.ltb_spec (Z.of_nat (6 * k)) len); [|eexists; reflexivity].
  destruct (rd_total buf (6 * k)) as [t ->]; [lia|]. cbn [bind].
  destruct (t =? x); [eexists; reflexivity|].
  replace (6 * k + 6)%nat with (6 * (k + 1))%nat by lia. apply IH; lia.
Qed.
Lemma lengths_loop_total : forall fuel k, (44 < fuel + k)%nat -> (k <= 44)%nat ->
  exists b, lengths_loop fuel buf len (6 * k) = Ret b.
Proof using Hb Hlen.
  induction fuel as [|fuel IH]; intros k H H'; [lia|]. cbn [lengths_loop].
  destruct (Z.ltb_spec (Z.of_nat (6 * k)) len); [|eexists; reflexivity].
  destruct (rd_total buf (6 * k + 1)) as [t ->]; [lia|]. cbn [bind].
  destruct (negb (t =? 4)); [eexists; reflexivity|].
  replace (6 * k + 6)%nat with (6 * (k + 1))%nat by lia. apply IH; lia.
Qed.
Lemma feature_loop_total x : forall fuel k, (44 < fuel + k)%nat -> (k <= 44)%nat ->
  exists b, feature_loop fuel buf len (6 * k) x = Ret b.
Proof using Hb Hlen.
  induction fuel as [|fuel IH]; intros k H H'; [lia|]. cbn [feature_loop].
  destruct (Z.ltb_spec (Z.of_nat (6 * k)) len); [|eexists; reflexivity].
  destruct (rd_total buf (6 * k)) as [t ->]; [lia|]. cbn [bind].
  replace (6 * k + 6)%nat with (6 * (k + 1))%nat by lia.
  destruct (t =? x); [|apply IH; lia].
  destruct (rd_total buf (6 * k + 1)) as [n ->]; [lia|]. cbn [bind].
  destruct (n =? 4); [|apply IH; lia].
  unfold sub. rewrite Hb.
  destruct (Nat.leb_spec (6 * k + 2 + 4) 264); [|lia]. cbn [bind]. eexists. reflexivity.
Qed.
End Any.

Lemma has_feature_total f x : feat_ok f -> exists b, has_feature f x = Ret b.
Proof.
  intros (Hb & Hl & _). unfold has_feature.
  destruct (f_buf_len f =? 0); [eexists; reflexivity|].
  rewrite Hb. apply (has_loop_total (f_buf f) (f_buf_len f) Hb (proj2 Hl) x _ 0); lia.
Qed.
Lemma get_feature_total f x : feat_ok f -> exists b, get_feature f x = Ret b.
Proof.
  intros (Hb & Hl & _). unfold get_feature.
  destruct (f_buf_len f =? 0); [eexists; reflexivity|].
  rewrite Hb. apply (feature_loop_total (f_buf f) (f_buf_len f) Hb (proj2 Hl) x _ 0); lia.
Qed.

Lemma pop_exit_ok {St} (sv : svc St) h r f s :
  exists s', pop_exit sv h r f s = Ret (r, f, s').
Proof.
  unfold pop_exit. destruct (sv_disconnect sv s h SCARD_LEAVE_CARD) as [x s'].
  exists s'. reflexivity.
Qed.

Definition pop_result (r : Z) (f : features) : Prop :=
  feat_ok f /\ (r = 0 -> (f_pin_len f = 0 \/ f_pin_len f = 4) /\
                         (f_disp_len f = 0 \/ f_disp_len f = 4)).

Lemma pop_end {St} (sv : svc St) h r f s : pop_result r f ->
  exists r' f' s', pop_exit sv h r f s = Ret (r', f', s') /\ pop_result r' f'.
Proof.
  intros H. destruct (pop_exit_ok sv h r f s) as [s' E].
  exists r, f, s'. split; assumption.
Qed.

Lemma put_front (a d : list Z) : (length d <= length a)%nat ->
  exists b, put a 0 d = Ret b /\ length b = length a.
Proof.
  intros H. rewrite put_0 by exact H. eexists. split; [reflexivity|].
  rewrite app_length, skipn_length. lia.
Qed.

Lemma pop_neg r f : r < 0 -> feat_ok f -> pop_result r f.
Proof. intros H F. split; [exact F|]. intros ->. lia. Qed.

Definition words (f : features) : Prop :=
  (f_pin_len f = 0 \/ f_pin_len f = 4) /\ (f_disp_len f = 0 \/ f_disp_len f = 4).
Definition pop_step {St} (o : out (option Z * features * St)) : Prop :=
  exists stop f s, o = Ret (stop, f, s) /\ feat_ok f /\
    match stop with Some r => r < 0 | None => words f end.

Ltac projs := cbn [f_buf f_buf_len f_pin f_pin_len f_disp f_disp_len f_props f_props_len] in *.
Ltac pop_tac := eexists _, _, _; split; [reflexivity|]; split;
  [unfold feat_ok, Zlen in *; projs; lia|unfold words, Zlen in *; projs; lia].

Section Pop.
Context {St : Type} (sv : svc St) (h : Z).
Hypothesis (HC : forall s h c n, (length (snd (fst (sv_control sv s h c n))) <= n)%nat).

Lemma pop_list_ok f s : feat_ok f -> words f -> pop_step (pop_list sv h f s).
Proof using HC.
  intros (Hb & Hbl & Hp & Hd & Hr & Hrl) W. unfold pop_list.
  pose proof (HC s h CM_IOCTL_GET_FEATURE_REQUEST (length (f_buf f))) as H.
  destruct (sv_control sv s h CM_IOCTL_GET_FEATURE_REQUEST (length (f_buf f)))
    as [[res d] s1]. cbn [fst snd] in H.
  destruct (put_front _ _ H) as (buf & -> & L). cbn [bind]. cbv zeta.
  destruct (negb (res =? SCARD_S_SUCCESS)); [pop_tac|].
  destruct (negb (Zlen d mod 6 =? 0)); [pop_tac|].
  assert (X : exists b, lengths_loop (S (length buf)) buf (Zlen d) 0 = Ret b).
  { apply (lengths_loop_total buf (Zlen d)) with (k := 0%nat); unfold Zlen; lia. }
  destruct X as [b ->]. cbn [bind]. destruct b; cbn [negb]; pop_tac.
Qed.
Lemma pop_pin_ok f s : feat_ok f -> words f -> pop_step (pop_pin sv h f s).
Proof using HC.
  intros OK W. unfold pop_pin.
  destruct (get_feature_total f FEATURE_IFD_PIN_PROPERTIES OK) as [c ->]. cbn [bind].
  destruct OK as (Hb & Hbl & Hp & Hd & Hr & Hrl).
  destruct c as [code|]; [|pop_tac].
  pose proof (HC s h code (length (f_pin f))) as H.
  destruct (sv_control sv s h code (length (f_pin f))) as [[res d] s1]. cbn [fst snd] in H.
  destruct (put_front _ _ H) as (buf & -> & L). cbn [bind]. cbv zeta.
  destruct (negb (res =? SCARD_S_SUCCESS)); [pop_tac|].
  destruct (Z.eqb_spec (Zlen d) (Zlen buf)); cbn [negb]; pop_tac.
Qed.
Lemma pop_disp_ok f s : feat_ok f -> words f -> pop_step (pop_disp sv h f s).
Proof using HC.
  intros OK W. unfold pop_disp.
  destruct (get_feature_total f FEATURE_IFD_DISPLAY_PROPERTIES OK) as [c ->]. cbn [bind].
  destruct OK as (Hb & Hbl & Hp & Hd & Hr & Hrl).
  destruct c as [code|]; [|pop_tac].
  pose proof (HC s h code (length (f_disp f))) as H.
  destruct (sv_control sv s h code (length (f_disp f))) as [[res d] s1]. cbn [fst snd] in H.
  destruct (put_front _ _ H) as (buf & -> & L). cbn [bind]. cbv zeta.
  destruct (negb (res =? SCARD_S_SUCCESS)); [pop_tac|].
  destruct (Z.eqb_spec (Zlen d) (Zlen buf)); cbn [negb]; pop_tac.
Qed.
Lemma pop_props_ok f s : feat_ok f -> words f -> pop_step (pop_props sv h f s).
Proof using HC.
  intros OK W. unfold pop_props.
  destruct (get_feature_total f FEATURE_GET_TLV_PROPERTIES OK) as [c ->]. cbn [bind].
  destruct OK as (Hb & Hbl & Hp & Hd & Hr & Hrl).
  destruct c as [code|]; [|pop_tac].
  pose proof (HC s h code (length (f_props f))) as H.
  destruct (sv_control sv s h code (length (f_props f))) as [[res d] s1]. cbn [fst snd] in H.
  destruct (put_front _ _ H) as (buf & -> & L). cbn [bind]. cbv zeta.
  destruct (negb (res =? SCARD_S_SUCCESS)); pop_tac.
Qed.
End Pop.

Lemma populate_ok {St} (sv : svc St) f s : svc_ok sv -> feat_ok f -> words f ->
  exists r f' s', populate_features sv f s = Ret (r, f', s') /\ pop_result r f'.
Proof.
  intros (HC & _) OK W. unfold populate_features.
  destruct (sv_connect sv s SCARD_SHARE_DIRECT) as [[[res h] pp] s1].
  destruct (negb (res =? SCARD_S_SUCCESS)); [apply pop_end, pop_neg; [lia|exact OK]|].
  destruct (pop_list_ok sv h HC f s1 OK W) as (t1 & f1 & s2 & -> & OK1 & W1). cbn [bind].
  destruct t1; [apply pop_end, pop_neg; assumption|].
  destruct (pop_pin_ok sv h HC f1 s2 OK1 W1) as (t2 & f2 & s3 & -> & OK2 & W2). cbn [bind].
  destruct t2; [apply pop_end, pop_neg; assumption|].
  destruct (pop_disp_ok sv h HC f2 s3 OK2 W2) as (t3 & f3 & s4 & -> & OK3 & W3). cbn [bind].
  destruct t3; [apply pop_end, pop_neg; assumption|].
  destruct (pop_props_ok sv h HC f3 s4 OK3 W3) as (t4 & f4 & s5 & -> & OK4 & W4). cbn [bind].
  destruct t4; [apply pop_end, pop_neg; assumption|].
  apply pop_end. split; [exact OK4|]. intros _. exact W4.
Qed.

(** ** Reader names *)

Lemma str_end_spec t : forall fuel pre post,
  Forall (fun c => c <> 0) t -> (length t < fuel)%nat ->
  str_end fuel (pre ++ t ++ 0 :: post) (length pre)
  = Ret (length pre + length t)%nat.
Proof.
  induction t as [|c t IH]; intros fuel pre post F Hf;
    (destruct fuel as [|fuel]; [cbn [length] in Hf; lia|]); cbn [str_end app length].
  - rewrite rd_at. cbn [bind]. rewrite Z.eqb_refl. f_equal. lia.
  - inversion F as [|? ? Hc F']; subst. rewrite rd_at. cbn [bind].
    destruct (Z.eqb_spec c 0); [contradiction|].
    specialize (IH fuel (pre ++ [c]) post F').
    rewrite <- app_assoc in IH. cbn [app] in IH. rewrite app_length in IH.
    cbn [length] in IH, Hf. rewrite IH by lia. f_equal. lia.
Qed.

Fixpoint name_offsets (off : nat) (names : list (list Z)) : list nat :=
  match names with
  | [] => []
  | n :: t => off :: name_offsets (off + length n + 1) t
  end.

Lemma reader_names_spec names : forall fuel pre tail,
  Forall is_name names -> (length names < fuel)%nat ->
  reader_names fuel (pre ++ multi_string names ++ tail) (length pre)
  = Ret (name_offsets (length pre) names).
Proof.
  induction names as [|n names IH]; intros fuel pre tail F Hf;
    (destruct fuel as [|fuel]; [cbn [length] in Hf; lia|]);
    cbn [reader_names name_offsets].
  - cbn [multi_string flat_map app]. rewrite rd_at. reflexivity.
  - inversion F as [|? ? [Hne Hn] F']; subst.
    assert (E : multi_string (n :: names) = n ++ 0 :: multi_string names).
    { unfold multi_string. cbn [flat_map]. rewrite <- !app_assoc. reflexivity. }
    rewrite E, <- app_assoc, <- app_comm_cons.
    assert (R : exists c, rd (pre ++ n ++ 0 :: multi_string names ++ tail) (length pre) = Ret c /\ c <> 0).
    { destruct n as [|c n]; [contradiction|]. inversion Hn; subst. exists c.
      cbn [app]. rewrite rd_at. split; [reflexivity|assumption]. }
    destruct R as (c & -> & Hc). cbn [bind].
    destruct (Z.eqb_spec c 0); [contradiction|].
    rewrite str_end_spec; [|exact Hn|rewrite !app_length; lia]. cbn [bind].
    specialize (IH fuel (pre ++ n ++ [0]) tail F').
    rewrite !app_length in IH. cbn [length] in IH, Hf.
    rewrite <- !app_assoc in IH. cbn [app] in IH.
    replace (length pre + length n + 1)%nat with (length pre + (length n + 1))%nat by lia.
    rewrite IH by lia. reflexivity.
Qed.

Lemma multi_string_len names : (length names < length (multi_string names))%nat.
Proof.
  unfold multi_string. rewrite app_length. cbn [length].
  induction names as [|n t IH]; [cbn; lia|]. cbn [flat_map length].
  rewrite !app_length. cbn [length]. lia.
Qed.

Lemma name_offsets_text names : forall pre tail k n,
  nth_error names k = Some n ->
  exists o, nth_error (name_offsets (length pre) names) k = Some o /\
    text_at (pre ++ multi_string names ++ tail) o n.
Proof.
  induction names as [|m names IH]; intros pre tail k n H; [destruct k; discriminate|].
  assert (E : multi_string (m :: names) = m ++ 0 :: multi_string names).
  { unfold multi_string. cbn [flat_map]. rewrite <- !app_assoc. reflexivity. }
  destruct k as [|k]; cbn [nth_error name_offsets] in *.
  - injection H as ->. exists (length pre). split; [reflexivity|].
    exists pre, (multi_string names ++ tail). split; [|reflexivity].
    rewrite E, <- app_assoc. reflexivity.
  - destruct (IH (pre ++ m ++ [0]) tail k n H) as (o & Ho & T).
    rewrite !app_length in Ho. cbn [length] in Ho. exists o.
    split; [|rewrite E, <- !app_assoc in *; exact T].
    replace (length pre + length m + 1)%nat with (length pre + (length m + 1))%nat by lia.
    exact Ho.
Qed.

Lemma name_offsets_length names : forall o, length (name_offsets o names) = length names.
Proof. induction names as [|n t IH]; intros o; cbn; [reflexivity|]. rewrite IH. reflexivity. Qed.

Lemma init_readers_spec names tail : Forall is_name names ->
  exists offs, init_readers (multi_string names ++ tail) = Ret offs /\
    length offs = length names /\
    (forall idx, 0 <= idx -> get_reader offs idx = None <-> Zlen names <= idx) /\
    (forall k n, nth_error names k = Some n -> exists o,
       get_reader offs (Z.of_nat k) = Some o /\
       text_at (multi_string names ++ tail) o n).
Proof.
  intros F. exists (name_offsets 0 names). unfold init_readers.
  split; [|split; [|split]].
  - apply (reader_names_spec names _ [] tail F).
    pose proof (multi_string_len names). rewrite app_length. lia.
  - apply name_offsets_length.
  - intros idx Hi. unfold get_reader, Zlen. rewrite name_offsets_length.
    destruct (Z.leb_spec (Z.of_nat (length names)) idx); [tauto|].
    split; [|lia]. intros N. apply nth_error_None in N.
    rewrite name_offsets_length in N. lia.
  - intros k n H. destruct (name_offsets_text names [] tail k n H) as (o & Ho & T).
    exists o. split; [|exact T]. unfold get_reader.
    assert (k < length names)%nat by (apply nth_error_Some; congruence).
    unfold Zlen. rewrite name_offsets_length.
    destruct (Z.leb_spec (Z.of_nat (length names)) (Z.of_nat k)); [lia|].
    rewrite Nat2Z.id. exact Ho.
Qed.

(** ** Waiting *)

Lemma find_present_some ev : forall i j, find_present i ev = Some j <->
  exists a e b, ev = a ++ e :: b /\ j = i + Zlen a /\
    Z.land e 0x20 <> 0 /\ Forall (fun x => Z.land x 0x20 = 0) a.
Proof.
  induction ev as [|x ev IH]; intros i j; cbn [find_present].
  - split; [discriminate|]. intros (a & e & b & E & _). destruct a; discriminate.
  - unfold SCARD_STATE_PRESENT.
    destruct (Z.eqb_spec (Z.land x 32) 0) as [Hx|Hx]; cbn [negb].
    + rewrite IH. split.
      * intros (a & e & b & -> & -> & He & Ha). exists (x :: a), e, b.
        split; [reflexivity|]. split; [unfold Zlen; cbn [length]; lia|].
        split; [exact He|]. constructor; assumption.
      * intros (a & e & b & E & -> & He & Ha). destruct a as [|y a].
        { injection E as -> ->. contradiction. }
        injection E as -> ->. inversion Ha; subst. exists a, e, b.
        split; [reflexivity|]. split; [unfold Zlen; cbn [length]; lia|].
        split; assumption.
    + split.
      * intros H. injection H as <-. exists [], x, ev. split; [reflexivity|].
        split; [unfold Zlen; cbn; lia|]. split; [exact Hx|constructor].
      * intros (a & e & b & E & -> & He & Ha). destruct a as [|y a].
        { f_equal. unfold Zlen. cbn. lia. }
        injection E as -> ->. inversion Ha; subst. contradiction.
Qed.
Lemma find_present_none ev : forall i, find_present i ev = None <->
  Forall (fun x => Z.land x 0x20 = 0) ev.
Proof.
  induction ev as [|x ev IH]; intros i; cbn [find_present].
  - split; [constructor|reflexivity].
  - unfold SCARD_STATE_PRESENT.
    destruct (Z.eqb_spec (Z.land x 32) 0) as [Hx|Hx]; cbn [negb].
    + rewrite IH. split; [intros; constructor; assumption|intros F; inversion F; assumption].
    + split; [discriminate|]. intros F; inversion F; contradiction.
Qed.
Lemma ask_states_nth n : forall i idx k, (k < n)%nat ->
  nth_error (ask_states n i idx) k
  = Some (if (idx =? PCSC_READER_ANY) || (idx =? Z.of_nat (i + k))
          then SCARD_STATE_EMPTY else SCARD_STATE_IGNORE).
Proof.
  induction n as [|n IH]; intros i idx k H; [lia|]. cbn [ask_states].
  destruct k as [|k]; cbn [nth_error].
  - rewrite Nat.add_0_r. reflexivity.
  - rewrite IH by lia. replace (S i + k)%nat with (i + S k)%nat by lia. reflexivity.
Qed.
Lemma ask_states_length n : forall i idx, length (ask_states n i idx) = n.
Proof. induction n; intros; cbn; [reflexivity|]. rewrite IHn. reflexivity. Qed.

(** ** Connecting *)

Lemma land_80 a : is_byte a -> (Z.land a 0x80 =? 0x80) = (8 <=? a / 16).
Proof.
  intros B. apply eqb_prop. revert a B.
  apply (byte_sweep (fun a => Bool.eqb (Z.land a 0x80 =? 0x80) (8 <=? a / 16))).
  vm_compute. reflexivity.
Qed.
Lemma land_0F a : is_byte a -> Z.land a 0x0F = a mod 16.
Proof. intros _. change 0x0F with (Z.ones 4). rewrite Z.land_ones by lia. reflexivity. Qed.

Lemma maybe_spec d tail : bytes d -> exists b,
  maybe_contactless (d ++ tail) (Zlen d) = Ret b /\ (b = true <-> contactless_atr d).
Proof.
  intros B. unfold maybe_contactless.
  assert (Short : Zlen d <= 4 -> ~ contactless_atr d).
  { intros H (hi & hist & tck & _ & _ & ->).
    rewrite !Zlen_cons', Zlen_app' in H. pose proof (Zlen_nonneg' hist).
    unfold Zlen in H at 2. cbn [length] in H. lia. }
  destruct (Z.ltb_spec 4 (Zlen d)) as [Hl|Hl]; cbn [negb].
  2:{ exists false. split; [reflexivity|]. split; [discriminate|]. intros C.
      exfalso. exact (Short Hl C). }
  destruct d as [|a0 [|a1 [|a2 [|a3 d]]]]; try (unfold Zlen in Hl; cbn in Hl; lia).
  unfold bytes in B. inversion B as [|? ? B0 B']; subst. inversion B' as [|? ? B1 B'']; subst.
  cbn [app rd nth_error bind]. clear Short.
  assert (Neg : forall (P : Prop), (contactless_atr (a0 :: a1 :: a2 :: a3 :: d) -> P) ->
    ~ P -> exists b, Ret false = Ret b /\
      (b = true <-> contactless_atr (a0 :: a1 :: a2 :: a3 :: d))).
  { intros P H N. exists false. split; [reflexivity|]. split; [discriminate|].
    intros C. exfalso. exact (N (H C)). }
  destruct (Z.eqb_spec a0 0x3B) as [E0|E0]; cbn [negb].
  2:{ apply (Neg (a0 = 0x3B)); [|exact E0].
      intros (hi & hist & tck & _ & _ & E). injection E. intros. assumption. }
  rewrite (land_80 _ B1), (land_0F _ B1). unfold is_byte in B1.
  destruct (Z.leb_spec 8 (a1 / 16)) as [E1|E1]; cbn [negb].
  2:{ apply (Neg (8 <= a1 / 16)); [|lia].
      intros (hi & hist & tck & Hh & Hn & E). injection E as _ E' _ _ _.
      pose proof (Zlen_nonneg' hist). rewrite E'.
      rewrite Z.add_comm, Z.div_add by lia. rewrite Z.div_small by lia. lia. }
  destruct (Z.eqb_spec a2 0x80) as [E2|E2]; cbn [negb].
  2:{ apply (Neg (a2 = 0x80)); [|exact E2].
      intros (hi & hist & tck & _ & _ & E). injection E. intros. assumption. }
  destruct (Z.eqb_spec a3 0x01) as [E3|E3]; cbn [negb].
  2:{ apply (Neg (a3 = 0x01)); [|exact E3].
      intros (hi & hist & tck & _ & _ & E). injection E. intros. assumption. }
  exists (Zlen (a0 :: a1 :: a2 :: a3 :: d) =? 5 + a1 mod 16). split; [reflexivity|].
  subst a0 a2 a3. rewrite !Zlen_cons' in *.
  rewrite Z.eqb_eq. split.
  - intros L. assert (Hd : d <> []) by (intros ->; unfold Zlen in Hl; cbn in Hl; lia).
    destruct (exists_last Hd) as (hist & tck & ->). rewrite Zlen_app' in L.
    unfold Zlen in L at 2. cbn [length] in L.
    exists (a1 / 16), hist, tck. pose proof (Z.mod_pos_bound a1 16 ltac:(lia)).
    split; [split; [lia|apply Z.div_lt_upper_bound; lia]|]. split; [lia|].
    replace (a1 / 16 * 16 + Zlen hist) with a1; [reflexivity|].
    pose proof (Z.div_mod a1 16 ltac:(lia)). lia.
  - intros (hi & hist & tck & Hh & Hn & E). injection E as -> ->.
    pose proof (Zlen_nonneg' hist). rewrite Zlen_app'.
    unfold Zlen at 2. cbn [length].
    rewrite Z.add_comm with (n := hi * 16), Z.mod_add, Z.mod_small by lia. lia.
Qed.

Definition UID_COMMAND : list Z := [0xFF; 0xCA; 0x00; 0x00; 0x00].

Section Uid.
Context {St : Type} (sv : svc St) (r : reader) (s s' : St) (uid : list Z) (res : Z) (resp : list Z).
Hypothesis (Pr : r_protocol r = 1 \/ r_protocol r = 2).
Hypothesis (T : sv_transmit sv s (r_card r) (r_protocol r) UID_COMMAND 12 = ((res, resp), s')).
Hypothesis (L : (length resp <= 12)%nat).

Lemma uid_trx : pcsc_trx sv r s UID_COMMAND (repeat 0 12) 12
  = Ret (if res =? 0 then 0 else -1, resp ++ skipn (length resp) (repeat 0 12),
         if res =? 0 then Zlen resp else 12, s').
Proof using Pr T L.
  unfold pcsc_trx, UID_COMMAND in *. unfold SCARD_PROTOCOL_T0, SCARD_PROTOCOL_T1.
  replace ((r_protocol r =? 1) || (r_protocol r =? 2)) with true by lia.
  change (Z.to_nat 12) with 12%nat. rewrite T. rewrite put_0 by exact L. cbn [bind].
  unfold SCARD_S_SUCCESS. destruct (res =? 0); reflexivity.
Qed.

Lemma rd_resp a sw1 sw2 tail : resp = a ++ [sw1; sw2] ->
  rd (resp ++ tail) (Z.to_nat (Zlen resp - 2)) = Ret sw1 /\
  rd (resp ++ tail) (Z.to_nat (Zlen resp - 1)) = Ret sw2.
Proof using L.
  intros Er. rewrite Er, <- app_assoc. cbn [app].
  assert (E : Zlen (a ++ [sw1; sw2]) = Zlen a + 2) by (rewrite Zlen_app'; reflexivity).
  rewrite E. replace (Z.to_nat (Zlen a + 2 - 2)) with (length a) by (unfold Zlen; lia).
  replace (Z.to_nat (Zlen a + 2 - 1)) with (length a + 1)%nat by (unfold Zlen; lia).
  rewrite rd_at, rd_at1. split; reflexivity.
Qed.

Hypothesis (LU : length uid = 10%nat).

Lemma uid_ok v : res = 0 -> resp = v ++ [0x90; 0x00] ->
  get_uid sv r s uid 10 = Ret (0, v ++ skipn (length v) uid, Zlen v, s').
Proof using Pr T L LU.
  intros R E. unfold get_uid. change [255; 202; 0; 0; 0] with UID_COMMAND.
  rewrite uid_trx. cbn [bind]. rewrite R. cbn [Z.eqb negb].
  pose proof (rd_resp v _ _ (skipn (length resp) (repeat 0 12)) E) as [R1 R2].
  assert (Lr : Zlen resp = Zlen v + 2) by (rewrite E, Zlen_app'; reflexivity).
  assert (Lv : (length v <= 10)%nat) by (rewrite E, app_length in L; cbn [length] in L; lia).
  pose proof (Zlen_nonneg' v).
  destruct (Z.ltb_spec (Zlen resp) 2); [lia|].
  rewrite R1, R2. cbn [bind Z.eqb Pos.eqb andb orb negb].
  destruct (Z.ltb_spec 10 (Zlen resp - 2)); [unfold Zlen in *; lia|].
  replace (Z.to_nat (Zlen resp - 2)) with (length v) by (unfold Zlen in *; lia).
  unfold sub. cbn [plus]. rewrite app_length.
  destruct (Nat.leb_spec (length v) (length resp + length (skipn (length resp) (repeat 0 12))));
    [|rewrite E, app_length in *; lia].
  cbn [bind]. replace (firstn _ _) with v.
  2:{ change (skipn 0 ?x) with x. rewrite E, <- app_assoc.
      rewrite firstn_app, firstn_all, Nat.sub_diag. cbn [firstn]. symmetry. apply app_nil_r. }
  rewrite put_0 by lia. cbn [bind]. rewrite Lr. repeat f_equal. lia.
Qed.

Lemma uid_contact v : res = 0 -> resp = v ++ [0x6A; 0x81] ->
  get_uid sv r s uid 10 = Ret (1, uid, 10, s').
Proof using Pr T L LU.
  intros R E. unfold get_uid. change [255; 202; 0; 0; 0] with UID_COMMAND.
  rewrite uid_trx. cbn [bind]. rewrite R. cbn [Z.eqb negb].
  pose proof (rd_resp v _ _ (skipn (length resp) (repeat 0 12)) E) as [R1 R2].
  assert (Lr : Zlen resp = Zlen v + 2) by (rewrite E, Zlen_app'; reflexivity).
  pose proof (Zlen_nonneg' v).
  destruct (Z.ltb_spec (Zlen resp) 2); [lia|].
  rewrite R1, R2. reflexivity.
Qed.

Lemma uid_error : (res <> 0 \/ (forall v, resp <> v ++ [0x90; 0x00]) /\
                               (forall v, resp <> v ++ [0x6A; 0x81])) ->
  exists e, get_uid sv r s uid 10 = Ret (e, uid, 10, s') /\ e < 0.
Proof using Pr T L LU.
  intros H. unfold get_uid. change [255; 202; 0; 0; 0] with UID_COMMAND.
  rewrite uid_trx. cbn [bind].
  destruct (Z.eqb_spec res 0) as [R|R].
  2:{ exists (-1). split; [reflexivity|lia]. }
  cbn [Z.eqb negb]. destruct H as [H|[H1 H2]]; [contradiction|].
  destruct (Z.ltb_spec (Zlen resp) 2) as [S2|S2].
  { exists (-5). split; [reflexivity|lia]. }
  assert (E : exists a x y, resp = a ++ [x; y]).
  { destruct (@exists_last _ resp) as (a & y & E1).
    { intros E0. rewrite E0 in S2. unfold Zlen in S2. cbn in S2. lia. }
    destruct (@exists_last _ a) as (b & x & E2).
    { intros E0. rewrite E1, E0 in S2. unfold Zlen in S2. cbn in S2. lia. }
    exists b, x, y. rewrite E1, E2, <- app_assoc. reflexivity. }
  destruct E as (a & x & y & E).
  pose proof (rd_resp a _ _ (skipn (length resp) (repeat 0 12)) E) as [R1 R2].
  rewrite R1, R2. cbn [bind].
  destruct (Z.eqb_spec x 0x6A) as [X|X]; destruct (Z.eqb_spec y 0x81) as [Y|Y]; cbn [andb].
  - exfalso. apply (H2 a). rewrite E, X, Y. reflexivity.
  - subst x. cbn [Z.eqb Pos.eqb negb orb]. exists (-6). split; [reflexivity|lia].
  - subst y. cbn [Z.eqb Pos.eqb negb]. rewrite orb_true_r. exists (-6). split; [reflexivity|lia].
  - destruct (Z.eqb_spec x 0x90) as [X'|X']; destruct (Z.eqb_spec y 0x00) as [Y'|Y']; cbn [negb orb];
      try (exists (-6); split; [reflexivity|lia]).
    exfalso. apply (H1 a). rewrite E, X', Y'. reflexivity.
Qed.
End Uid.

Section Connect.
Context {St : Type} (sv : svc St) (r : reader) (s s1 s2 : St) (h p p2 : Z) (d : list Z).
Hypothesis (OK : reader_ok r).
Hypothesis (C1 : sv_connect sv s 1 = ((0, h, p), s1)).
Hypothesis (C2 : sv_status sv s1 h 33 = ((0, p2, d), s2)).
Hypothesis (B : bytes d) (L : (length d <= 33)%nat).

Let atr := d ++ skipn (length d) (r_atr r).

Lemma connect_contact : ~ contactless_atr d ->
  connect sv r s = Ret (1, mkreader h p2 atr (Zlen d) (r_uid r) (r_uid_len r) 1, s2).
Proof using OK C1 C2 B L.
  intros N. destruct OK as (O1 & O2 & O3 & O4). unfold connect.
  change SCARD_SHARE_EXCLUSIVE with 1. rewrite C1. cbn [Z.eqb SCARD_S_SUCCESS negb].
  rewrite O1, C2, put_0 by lia. cbn [bind]. cbv zeta. unfold SCARD_S_SUCCESS. cbn [Z.eqb negb].
  cbn [r_atr r_atr_len r_card r_protocol r_uid r_uid_len r_type].
  destruct (maybe_spec d (skipn (length d) (r_atr r)) B) as (b & -> & Hb). cbn [bind].
  destruct b; [exfalso; apply N, Hb; reflexivity|]. reflexivity.
Qed.

Context (s3 : St) (res : Z) (resp : list Z).
Hypothesis (CL : contactless_atr d).
Hypothesis (Pr : p2 = 1 \/ p2 = 2).
Hypothesis (T : sv_transmit sv s2 h p2 UID_COMMAND 12 = ((res, resp), s3)).
Hypothesis (LR : (length resp <= 12)%nat).

Lemma connect_uid : connect sv r s =
  let* (res, uid, uid_len, s) :=
    get_uid sv (mkreader h p2 atr (Zlen d) (r_uid r) (r_uid_len r) (r_type r)) s2 (r_uid r) 10 in
  let t := if res <? 0 then r_type r else if 0 <? res then 1 else 2 in
  Ret (if res <? 0 then res else t, mkreader h p2 atr (Zlen d) uid uid_len t, s).
Proof using OK C1 C2 B L CL Pr T LR.
  destruct OK as (O1 & O2 & O3 & O4). unfold connect.
  change SCARD_SHARE_EXCLUSIVE with 1. rewrite C1. cbn [Z.eqb SCARD_S_SUCCESS negb].
  rewrite O1, C2, put_0 by lia. cbn [bind]. cbv zeta. unfold SCARD_S_SUCCESS. cbn [Z.eqb negb].
  cbn [r_atr r_atr_len r_card r_protocol r_uid r_uid_len r_type].
  destruct (maybe_spec d (skipn (length d) (r_atr r)) B) as (b & -> & Hb). cbn [bind].
  destruct b; [|exfalso; apply Hb in CL; discriminate].
  unfold Zlen at 2. rewrite O3. change (Z.of_nat 10) with 10.
  destruct (get_uid _ _ _ _ _) as [[[[e u] ul] s4]| |]; [|reflexivity|reflexivity].
  cbn [bind]. destruct (e <? 0); [reflexivity|]. destruct (0 <? e); reflexivity.
Qed.

Lemma connect_contactless v : res = 0 -> resp = v ++ [0x90; 0x00] ->
  connect sv r s = Ret (2, mkreader h p2 atr (Zlen d) (v ++ skipn (length v) (r_uid r)) (Zlen v) 2, s3).
Proof using OK C1 C2 B L CL Pr T LR.
  intros R E. rewrite connect_uid. destruct OK as (O1 & O2 & O3 & O4).
  erewrite uid_ok; [reflexivity|..|exact R|exact E]; try eassumption; reflexivity.
Qed.
Lemma connect_unsupported v : res = 0 -> resp = v ++ [0x6A; 0x81] ->
  connect sv r s = Ret (1, mkreader h p2 atr (Zlen d) (r_uid r) 10 1, s3).
Proof using OK C1 C2 B L CL Pr T LR.
  intros R E. rewrite connect_uid. destruct OK as (O1 & O2 & O3 & O4).
  erewrite uid_contact; [reflexivity|..|exact R|exact E]; try eassumption; reflexivity.
Qed.
Lemma connect_uid_error : (res <> 0 \/ (forall v, resp <> v ++ [0x90; 0x00]) /\
                                       (forall v, resp <> v ++ [0x6A; 0x81])) ->
  exists e, connect sv r s =
    Ret (e, mkreader h p2 atr (Zlen d) (r_uid r) 10 (r_type r), s3) /\ e < 0.
Proof using OK C1 C2 B L CL Pr T LR.
  intros H. rewrite connect_uid. destruct OK as (O1 & O2 & O3 & O4).
  destruct (uid_error sv (mkreader h p2 atr (Zlen d) (r_uid r) (r_uid_len r) (r_type r))
    s2 s3 (r_uid r) res resp Pr T LR O3 H) as (e & -> & He).
  exists e. cbn [bind]. destruct (Z.ltb_spec e 0); [|lia]. split; [reflexivity|exact He].
Qed.
End Connect.

(** Connecting never leaves the buffers, whatever a well-behaved service says. *)
Lemma trx_total {St} (sv : svc St) r s tx rx rxl : svc_ok sv -> 0 <= rxl <= Zlen rx ->
  exists e rx' n s', pcsc_trx sv r s tx rx rxl = Ret (e, rx', n, s') /\
    length rx' = length rx /\ 0 <= n <= rxl /\ (e = 0 \/ e = -1) /\
    (forall i, rx' = firstn i rx' ++ skipn i rx') /\ (e <> 0 -> n = rxl).
Proof.
  intros (_ & _ & HT) R. unfold pcsc_trx. destruct tx as [|t0 tx].
  { eexists _, _, _, _. split; [reflexivity|]. split; [reflexivity|]. split; [lia|].
    split; [lia|]. split; [intros; symmetry; apply firstn_skipn|reflexivity]. }
  destruct ((r_protocol r =? SCARD_PROTOCOL_T0) || (r_protocol r =? SCARD_PROTOCOL_T1)).
  2:{ eexists _, _, _, _. split; [reflexivity|]. split; [reflexivity|]. split; [lia|].
    split; [lia|]. split; [intros; symmetry; apply firstn_skipn|reflexivity]. }
  pose proof (HT s (r_card r) (r_protocol r) (t0 :: tx) (Z.to_nat rxl)) as H.
  destruct (sv_transmit sv s (r_card r) (r_protocol r) (t0 :: tx) (Z.to_nat rxl)) as [[res d] s'].
  cbn [fst snd] in H. unfold Zlen in R.
  destruct (put_front rx d) as (b & -> & Lb); [lia|]. cbn [bind].
  destruct (negb (res =? SCARD_S_SUCCESS)); eexists _, _, _, _;
    (split; [reflexivity|]); (split; [exact Lb|]); unfold Zlen;
    (split; [lia|]); (split; [lia|]); (split; [intros; symmetry; apply firstn_skipn|lia]).
Qed.

Lemma get_uid_total {St} (sv : svc St) r s uid : svc_ok sv -> length uid = 10%nat ->
  exists e uid' n s', get_uid sv r s uid 10 = Ret (e, uid', n, s') /\
    length uid' = 10%nat /\ 0 <= n <= 10.
Proof.
  intros OK LU. unfold get_uid.
  destruct (trx_total sv r s [255; 202; 0; 0; 0] (repeat 0 12) 12 OK ltac:(cbn; lia))
    as (e & rx & n & s' & -> & Lrx & Hn & _ & _ & _). cbn [bind].
  rewrite repeat_length in Lrx.
  destruct (negb (e =? 0)); [eexists _, _, _, _; split; [reflexivity|]; split; [exact LU|lia]|].
  destruct (Z.ltb_spec n 2); [eexists _, _, _, _; split; [reflexivity|]; split; [exact LU|lia]|].
  destruct (rd_total rx (Z.to_nat (n - 2))) as [x ->]; [lia|]. cbn [bind].
  destruct (rd_total rx (Z.to_nat (n - 1))) as [y ->]; [lia|]. cbn [bind].
  destruct ((x =? 106) && (y =? 129));
    [eexists _, _, _, _; split; [reflexivity|]; split; [exact LU|lia]|].
  destruct (negb (x =? 144) || negb (y =? 0));
    [eexists _, _, _, _; split; [reflexivity|]; split; [exact LU|lia]|].
  destruct (Z.ltb_spec 10 (n - 2));
    [eexists _, _, _, _; split; [reflexivity|]; split; [exact LU|lia]|].
  unfold sub. cbn [plus]. destruct (Nat.leb_spec (Z.to_nat (n - 2)) (length rx)); [|lia].
  cbn [bind]. change (skipn 0 rx) with rx.
  destruct (put_front uid (firstn (Z.to_nat (n - 2)) rx)) as (u & -> & Lu).
  { rewrite firstn_length. lia. }
  cbn [bind]. eexists _, _, _, _. split; [reflexivity|]. split; [lia|lia].
Qed.

Lemma maybe_total atr n : length atr = 33%nat -> exists b, maybe_contactless atr n = Ret b.
Proof.
  intros H. destruct atr as [|a0 [|a1 [|a2 [|a3 atr]]]]; try discriminate.
  unfold maybe_contactless. cbn [rd nth_error bind].
  repeat match goal with |- context[if ?c then _ else _] => destruct c; try (eexists; reflexivity) end.
Qed.

Lemma disconnect_ok {St} (sv : svc St) r s : reader_ok r ->
  reader_ok (snd (fst (disconnect sv r s))).
Proof.
  intros (O1 & O2 & O3 & O4). unfold disconnect.
  destruct (sv_disconnect sv s (Some (r_card r)) SCARD_UNPOWER_CARD) as [x s'].
  destruct (negb (x =? SCARD_S_SUCCESS)); cbn [fst snd]; unfold reader_ok;
    cbn [r_atr r_atr_len r_card r_protocol r_uid r_uid_len r_type];
    rewrite ?repeat_length; lia.
Qed.

Lemma connect_ok {St} (sv : svc St) r s : svc_ok sv -> reader_ok r ->
  exists t r' s', connect sv r s = Ret (t, r', s') /\ reader_ok r'.
Proof.
  intros OKS OK. unfold connect.
  destruct (sv_connect sv s SCARD_SHARE_EXCLUSIVE) as [[[res h] p] s1].
  destruct (negb (res =? SCARD_S_SUCCESS)); [eexists _, _, _; split; [reflexivity|exact OK]|].
  pose proof (proj1 (proj2 OKS) s1 h (length (r_atr r))) as HS.
  destruct (sv_status sv s1 h (length (r_atr r))) as [[[res2 p2] d] s2]. cbn [fst snd] in HS.
  destruct OK as (O1 & O2 & O3 & O4).
  destruct (put_front (r_atr r) d HS) as (atr & -> & La). cbn [bind]. cbv zeta.
  set (r1 := mkreader h p2 atr (Zlen d) _ _ _).
  assert (OK1 : reader_ok r1).
  { unfold reader_ok, r1, Zlen.
    cbn [r_atr r_atr_len r_card r_protocol r_uid r_uid_len r_type]. lia. }
  destruct (negb (res2 =? SCARD_S_SUCCESS)).
  { pose proof (disconnect_ok sv r1 s2 OK1) as D.
    destruct (disconnect sv r1 s2) as [[x r2] s3]. cbn [fst snd] in D.
    eexists _, _, _. split; [reflexivity|exact D]. }
  destruct OK1 as (Q1 & Q2 & Q3 & Q4).
  destruct (maybe_total (r_atr r1) (r_atr_len r1) Q1) as [m ->]. cbn [bind].
  destruct m.
  2:{ eexists _, _, _. split; [reflexivity|]. unfold reader_ok.
      cbn [r_atr r_atr_len r_card r_protocol r_uid r_uid_len r_type]. lia. }
  unfold Zlen at 1. rewrite Q3. change (Z.of_nat 10) with 10.
  destruct (get_uid_total sv r1 s2 (r_uid r1) OKS Q3) as (e & u & n & s3 & -> & Lu & Hn).
  cbn [bind].
  destruct (e <? 0); [|destruct (0 <? e)]; eexists _, _, _; (split; [reflexivity|]);
    unfold reader_ok; cbn [r_atr r_atr_len r_card r_protocol r_uid r_uid_len r_type]; lia.
Qed.

(** ** Reading the ATR *)
Lemma get_atr_total r b : reader_ok r -> (33 <= length b)%nat ->
  exists e b' n, get_atr r b = Ret (e, b', n) /\ length b' = length b /\ 0 <= e /\
    skipn 33 b' = skipn 33 b.
Proof.
  intros (O1 & O2 & _) Hb. unfold get_atr.
  destruct (r_atr_len r =? 0).
  { eexists _, _, _. split; [reflexivity|]. split; [reflexivity|]. split; [lia|reflexivity]. }
  destruct (negb (r_type r =? TYPE_CONTACT)).
  { eexists _, _, _. split; [reflexivity|]. split; [reflexivity|]. split; [lia|reflexivity]. }
  unfold sub. cbn [plus].
  destruct (Nat.leb_spec (Z.to_nat (r_atr_len r)) (length (r_atr r))); [|lia].
  cbn [bind]. change (skipn 0 (r_atr r)) with (r_atr r).
  assert (Ld : length (firstn (Z.to_nat (r_atr_len r)) (r_atr r)) = Z.to_nat (r_atr_len r))
    by (rewrite firstn_length; lia).
  rewrite put_0 by lia. cbn [bind]. eexists _, _, _. split; [reflexivity|].
  rewrite app_length, skipn_length. split; [lia|]. split; [lia|].
  rewrite skipn_app, skipn_all2 by lia. cbn [app]. rewrite skipn_skipn'.
  f_equal. lia.
Qed.

Lemma get_atr_after d a p2 h u ul b : length (d ++ a) = 33%nat -> d <> [] ->
  (33 <= length b)%nat ->
  get_atr (mkreader h p2 (d ++ a) (Zlen d) u ul 1) b
  = Ret (0, d ++ skipn (length d) b, Some (Zlen d)).
Proof.
  intros L N Hb. unfold get_atr. cbn [r_atr r_atr_len r_type].
  rewrite app_length in L.
  destruct (Z.eqb_spec (Zlen d) 0) as [E|E].
  { destruct d; [contradiction|]. unfold Zlen in E. cbn [length] in E. lia. }
  cbn [Z.eqb TYPE_CONTACT negb Pos.eqb].
  replace (Z.to_nat (Zlen d)) with (length d) by (unfold Zlen; lia).
  unfold sub. cbn [plus]. rewrite app_length.
  destruct (Nat.leb_spec (length d) (length d + length a)); [|lia]. cbn [bind].
  change (skipn 0 (d ++ a)) with (d ++ a).
  rewrite firstn_app, firstn_all, Nat.sub_diag. cbn [firstn]. rewrite app_nil_r.
  rewrite put_0 by lia. reflexivity.
Qed.

Lemma get_atr_disconnected {St} (sv : svc St) r s b r' s' :
  disconnect sv r s = (0, r', s') -> get_atr r' b = Ret (1, b, None).
Proof.
  unfold disconnect.
  destruct (sv_disconnect sv s (Some (r_card r)) SCARD_UNPOWER_CARD) as [x s1].
  destruct (negb (x =? SCARD_S_SUCCESS)); intros E; injection E as E1 E2; try discriminate.
  subst r'. reflexivity.
Qed.

(** ** Holding the reader *)
Lemma failed_connect_free {St} (sv : svc St) r s h p s1 : 
  sv_connect sv s 1 = ((h, p), s1) -> fst h <> 0 ->
  connect (tracked sv) r (s, false) = Ret (-1, r, (s1, false)).
Proof.
  intros C N. unfold connect, tracked. cbn [sv_connect fst snd].
  change SCARD_SHARE_EXCLUSIVE with 1. rewrite C. destruct h as [res h]. cbn [fst snd] in *.
  destruct (Z.eqb_spec res 0); [contradiction|].
  unfold SCARD_S_SUCCESS. destruct (Z.eqb_spec res 0); [contradiction|]. reflexivity.
Qed.
Lemma failed_status_free {St} (sv : svc St) r s h p s1 res p2 d s2 s3 b :
  reader_ok r -> sv_connect sv s 1 = ((0, h, p), s1) ->
  sv_status sv s1 h 33 = ((res, p2, d), s2) -> (length d <= 33)%nat -> res <> 0 ->
  sv_disconnect sv s2 (Some h) 2 = (0, s3) ->
  exists r', connect (tracked sv) r (s, b) = Ret (-1, r', (s3, false)) /\
    forall a, get_atr r' a = Ret (1, a, None).
Proof.
  intros (O1 & O2 & O3 & O4) C1 C2 L N D. unfold connect.
  cbn [tracked sv_connect sv_status fst snd]. change SCARD_SHARE_EXCLUSIVE with 1.
  rewrite C1. unfold SCARD_S_SUCCESS. cbn [fst snd Z.eqb negb]. rewrite O1, C2.
  rewrite put_0 by lia. cbn [bind]. cbv zeta.
  destruct (Z.eqb_spec res 0); [contradiction|]. cbn [negb].
  unfold disconnect. cbn [tracked sv_disconnect r_card fst snd].
  change SCARD_UNPOWER_CARD with 2. rewrite D. cbn [Z.eqb negb SCARD_S_SUCCESS].
  eexists. split; [reflexivity|]. reflexivity.
Qed.
