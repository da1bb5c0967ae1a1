(** Proofs about the tools. *)
From Verif Require Import Base BaseLemmas BerSpec BerModel BerProofs TlvSpec TlvModel TlvProofs
  PcscProofs ToolsModel ToolsSpec.

(** ** Hex *)
Lemma is_space_ok c : is_space c = true <-> space c.
Proof. unfold is_space, space. cbn [In]. split; intros; lia. Qed.
Lemma is_xdigit_ok c : is_xdigit c = true <-> exists v, xdigit c v.
Proof.
  unfold is_xdigit, xdigit. split.
  - intros H. assert (D : 48 <= c <= 57 \/ 65 <= c <= 70 \/ 97 <= c <= 102) by lia.
    destruct D as [D|[D|D]]; eexists; eauto.
  - intros (v & H). lia.
Qed.
Lemma xvalue_ok c v : xdigit c v -> xvalue c = v.
Proof.
  unfold xdigit, xvalue. intros H.
  destruct (Z.leb_spec c 0x39); [lia|]. destruct (Z.leb_spec c 0x46); lia.
Qed.
Lemma xdigit_range c v : xdigit c v -> 0 <= v < 16 /\ c <> 0 /\ ~ space c.
Proof. unfold xdigit, space. cbn [In]. lia. Qed.

(** The characters the inner loop takes, as a function of the rest of the text. *)
Fixpoint two (t : list Z) (k : nat) : option (list Z * list Z) :=
  match k with
  | O => Some ([], t)
  | S k' =>
    match t with
    | [] => Some ([], [])
    | c :: t' =>
      if is_space c then two t' k
      else if is_xdigit c then
        match two t' k' with Some (d, r) => Some (c :: d, r) | None => None end
      else None
    end
  end.
Definition no_nul (t : list Z) : Prop := Forall (fun c => c <> 0) t.

Lemma rd_suffix pre (t : list Z) : rd ((pre ++ t) ++ [0]) (length pre) = Ret (hd 0 t).
Proof.
  rewrite <- app_assoc. destruct t as [|c t]; cbn [app hd].
  - apply rd_app_mid; reflexivity.
  - apply rd_app_mid; reflexivity.
Qed.

Lemma hex_two_run t : forall pre str k fuel, no_nul t -> (k <= 2)%nat -> length str = 3%nat ->
  (length t < fuel)%nat ->
  hex_two fuel ((pre ++ t) ++ [0]) (length pre) str k =
  match two t (2 - k) with
  | None => Ret None
  | Some (d, r) => Ret (Some ((length (pre ++ t) - length r)%nat,
                     firstn k str ++ d ++ skipn (k + length d) str, (k + length d)%nat))
  end.
Proof.
  induction t as [|c t IH]; intros pre str k fuel Hn Hk Hs Hf.
  - destruct fuel; [lia|]. cbn [hex_two]. rewrite rd_suffix. cbn [bind hd Z.eqb orb].
    replace (two [] (2 - k)) with (Some ([] : list Z, [] : list Z)) by (destruct (2 - k)%nat; reflexivity).
    cbn [length app]. rewrite app_nil_r, Nat.sub_0_r, !Nat.add_0_r, firstn_skipn. reflexivity.
  - destruct fuel; [cbn in Hf; lia|]. cbn [hex_two]. rewrite rd_suffix. cbn [bind hd].
    inversion Hn as [|? ? Hc Hn']; subst. cbn [length] in Hf.
    destruct (Z.eqb_spec c 0) as [|_]; [contradiction|]. cbn [orb].
    destruct (Nat.leb_spec 2 k) as [H2|H2].
    { assert (k = 2%nat) by lia. subst k. cbn [Nat.sub two length app].
      rewrite app_length. cbn [length].
      replace (length pre + S (length t) - S (length t))%nat with (length pre) by lia.
      rewrite Nat.add_0_r, firstn_skipn. reflexivity. }
    destruct (2 - k)%nat as [|k'] eqn:Ek; [lia|]. cbn [two].
    replace (pre ++ c :: t) with ((pre ++ [c]) ++ t) by (rewrite <- app_assoc; reflexivity).
    replace (S (length pre)) with (length (pre ++ [c])) by (rewrite app_length; cbn; lia).
    destruct (is_space c).
    { rewrite IH by (auto; lia). rewrite Ek. reflexivity. }
    destruct (is_xdigit c); cbn [negb]; [|reflexivity].
    rewrite wr_Ret by lia. cbn [bind].
    rewrite IH by (auto; try lia; rewrite upd_length; auto).
    replace (2 - S k)%nat with k' by lia.
    destruct (two t k') as [[d r]|]; [|reflexivity]. do 2 f_equal. cbn [length].
    replace (S k + length d)%nat with (k + S (length d))%nat by lia. f_equal. f_equal.
    assert (E : firstn (S k) (upd str k c) = firstn k str ++ [c]).
    { destruct str as [|x0 [|x1 [|x2 [|]]]]; try discriminate.
      destruct k as [|[|k]]; [reflexivity..|lia]. }
    rewrite E, <- app_assoc. cbn [app]. do 3 f_equal.
    destruct str as [|x0 [|x1 [|x2 [|]]]]; try discriminate.
    destruct k as [|[|k]]; [| |lia]; cbn [upd Nat.add skipn]; reflexivity.
Qed.

Lemma two_rest t : forall k d r, two t k = Some (d, r) -> (length r + length d <= length t)%nat.
Proof.
  induction t as [|c t IH]; intros [|k] d r H; cbn [two] in H.
  - injection H as <- <-. cbn; lia.
  - injection H as <- <-. cbn; lia.
  - injection H as <- <-. cbn; lia.
  - destruct (is_space c); [apply IH in H; cbn [length]; lia|].
    destruct (is_xdigit c); [|discriminate].
    destruct (two t k) as [[d' r']|] eqn:E; [|discriminate]. injection H as <- <-.
    apply IH in E. cbn [length]. lia.
Qed.
Lemma two_sound t : forall k d r, two t k = Some (d, r) ->
  exists p, t = p ++ r /\ hexish p /\ (length d < k -> r = [])%nat /\ (length d <= k)%nat.
Proof.
  induction t as [|c t IH]; intros [|k] d r H; cbn [two] in H.
  - injection H as <- <-. exists []. repeat split; auto. constructor.
  - injection H as <- <-. exists []. repeat split; auto; [constructor|cbn; lia].
  - injection H as <- <-. exists []. repeat split; auto; [constructor|cbn; lia].
  - destruct (is_space c) eqn:Es.
    + apply IH in H. destruct H as (p & -> & Hp & Hr). exists (c :: p). split; [reflexivity|].
      split; [|exact Hr]. constructor; [left; now apply is_space_ok|exact Hp].
    + destruct (is_xdigit c) eqn:Ex; [|discriminate].
      destruct (two t k) as [[d' r']|] eqn:E; [|discriminate]. injection H as <- <-.
      apply IH in E. destruct E as (p & -> & Hp & Hr & Hl). exists (c :: p). split; [reflexivity|].
      split; [constructor; [right; now apply is_xdigit_ok|exact Hp]|]. cbn [length]. split; [|lia].
      intros; apply Hr; lia.
Qed.
Lemma two_none t : forall k, two t k = None -> ~ hexish t.
Proof.
  induction t as [|c t IH]; intros [|k] H; cbn [two] in H; try discriminate.
  intros Hh. inversion Hh as [|? ? Hc Ht]; subst.
  destruct (is_space c) eqn:Es; [eapply IH; eauto|].
  destruct (is_xdigit c) eqn:Ex.
  - destruct (two t k) as [[]|] eqn:E; [discriminate|]. eapply IH; eauto.
  - destruct Hc as [Hc|Hc]; [apply is_space_ok in Hc|apply is_xdigit_ok in Hc]; congruence.
Qed.
Lemma two_spaces sp : forall t k, Forall space sp -> two (sp ++ t) (S k) = two t (S k).
Proof.
  induction sp as [|c sp IH]; intros t k H; [reflexivity|]. inversion H; subst.
  cbn [app]. cbn [two]. rewrite (proj2 (is_space_ok c)) by auto. apply (IH t k); auto.
Qed.
Lemma two_digit a va t k : xdigit a va -> two (a :: t) (S k) =
  match two t k with Some (d, r) => Some (a :: d, r) | None => None end.
Proof.
  intros H. cbn [two]. destruct (is_space a) eqn:E.
  - apply is_space_ok in E. apply xdigit_range in H. tauto.
  - rewrite (proj2 (is_xdigit_ok a)) by eauto. reflexivity.
Qed.
Lemma two_pair sp1 a va sp2 b vb t : Forall space sp1 -> Forall space sp2 -> xdigit a va -> xdigit b vb ->
  two (sp1 ++ a :: sp2 ++ b :: t) 2 = Some ([a; b], t).
Proof.
  intros H1 H2 Ha Hb. rewrite two_spaces, (two_digit _ va), two_spaces, (two_digit _ vb) by auto.
  cbn [two]. destruct t; reflexivity.
Qed.
Lemma two_one t : forall d r, two t 1 = Some (d, r) -> d <> [] ->
  exists sp c v, t = sp ++ c :: r /\ Forall space sp /\ xdigit c v /\ d = [c].
Proof.
  induction t as [|c t IH]; intros d r H Hd; cbn [two] in H.
  - injection H as <- <-. contradiction.
  - destruct (is_space c) eqn:Es.
    + destruct (IH d r H Hd) as (sp & x & v & -> & Hsp & Hx & Hd'). exists (c :: sp), x, v.
      split; [reflexivity|]. split; [constructor; [now apply is_space_ok|auto]|auto].
    + destruct (is_xdigit c) eqn:Ex; [|discriminate]. apply is_xdigit_ok in Ex. destruct Ex as [v Hv].
      replace (two t 0) with (Some ([] : list Z, t)) in H by (destruct t; reflexivity).
      injection H as <- <-. exists [], c, v. repeat split; auto.
Qed.
Lemma two_two t : forall d r, two t 2 = Some (d, r) -> length d = 2%nat ->
  exists sp1 a va sp2 b vb, t = sp1 ++ a :: sp2 ++ b :: r /\ Forall space sp1 /\ Forall space sp2 /\
    xdigit a va /\ xdigit b vb /\ d = [a; b].
Proof.
  induction t as [|c t IH]; intros d r H Hd; cbn [two] in H.
  - injection H as <- <-. discriminate.
  - destruct (is_space c) eqn:Es.
    + destruct (IH d r H Hd) as (sp & a & va & sp2 & b & vb & -> & H1 & H2). exists (c :: sp), a, va, sp2, b, vb.
      split; [reflexivity|]. split; [constructor; [now apply is_space_ok|auto]|auto].
    + destruct (is_xdigit c) eqn:Ex; [|discriminate]. apply is_xdigit_ok in Ex. destruct Ex as [v Hv].
      destruct (two t 1) as [[d' r']|] eqn:E; [|discriminate]. injection H as <- <-.
      destruct (two_one t d' r' E) as (sp & b & vb & -> & Hsp & Hb & ->).
      { destruct d'; [discriminate|discriminate]. }
      exists [], c, v, sp, b, vb. repeat split; auto.
Qed.

Lemma no_nul_app a b : no_nul (a ++ b) <-> no_nul a /\ no_nul b.
Proof. apply Forall_app. Qed.

Lemma hexish_app a b : hexish (a ++ b) <-> hexish a /\ hexish b.
Proof. apply Forall_app. Qed.

(** One turn of the outer loop. *)
Lemma hex_loop_step fuel pre c t max buf n : no_nul (c :: t) -> (0 < max)%nat ->
  hex_loop (S fuel) ((pre ++ c :: t) ++ [0]) (length pre) max buf n =
  match two (c :: t) 2 with
  | None => Ret (-2, buf, n)
  | Some (a :: b :: _, r) =>
    let* buf := wr buf n (u8 (xvalue a * 16 + xvalue b)) in
    hex_loop fuel ((pre ++ c :: t) ++ [0]) (length (pre ++ c :: t) - length r)%nat (max - 1) buf (S n)
  | Some _ => Ret (1, buf, n)
  end.
Proof.
  intros Hn Hm. cbn [hex_loop]. rewrite rd_suffix. cbn [hd bind].
  destruct (Z.eqb_spec c 0) as [->|_]; [inversion Hn; contradiction|].
  destruct (Nat.eqb_spec max 0); [lia|]. cbn [orb].
  rewrite hex_two_run by (auto; rewrite ?app_length; cbn [length]; lia).
  change (2 - 0)%nat with 2%nat.
  destruct (two (c :: t) 2) as [[d r]|] eqn:E; cbn [bind]; [|reflexivity].
  pose proof (two_sound _ _ _ _ E) as (_ & _ & _ & _ & Hl).
  destruct d as [|a [|b [|]]]; cbn [length] in Hl; try lia; reflexivity.
Qed.

Lemma hex_loop_result : forall fuel t pre max buf n, no_nul t -> (length t < fuel)%nat ->
  (length t <= 2 * max)%nat -> (n + max <= length buf)%nat ->
  exists r bs, hex_loop fuel ((pre ++ t) ++ [0]) (length pre) max buf n =
    Ret (r, firstn n buf ++ bs ++ skipn (n + length bs) buf, (n + length bs)%nat) /\
    (r = 0 /\ hex_of t bs \/ r = -2 /\ ~ hexish t \/ r = 1 /\ hexish t) /\
    (forall bs', hex_of t bs' -> r = 0 /\ bs = bs').
Proof.
  induction fuel as [|fuel IH]; intros t pre max buf n Hn Hf Hm Hb; [lia|].
  destruct t as [|c t].
  - cbn [hex_loop]. rewrite rd_suffix. cbn [hd bind Z.eqb orb]. exists 0, [].
    cbn [app length]. rewrite Nat.add_0_r, firstn_skipn. split; [reflexivity|].
    split; [left; split; [reflexivity|constructor]|].
    intros bs' H. inversion H as [E|sp1 ? ? ? ? ? ? ? ? ? ? ? ? E]; [auto|].
    destruct sp1; discriminate.
  - rewrite hex_loop_step by (auto; cbn [length] in Hm; lia).
    assert (Same : firstn n buf ++ [] ++ skipn (n + length (@nil Z)) buf = buf)
      by (cbn [length app]; rewrite Nat.add_0_r; apply firstn_skipn).
    assert (Cmp : forall bs', hex_of (c :: t) bs' -> exists a va b vb r bs0,
      two (c :: t) 2 = Some ([a; b], r) /\ xdigit a va /\ xdigit b vb /\ hex_of r bs0 /\
      bs' = va * 16 + vb :: bs0).
    { intros bs' H. inversion H as [|sp1 a va sp2 b vb t' bs0 H1 H2 Ha Hb' Ht E]; subst.
      exists a, va, b, vb, t', bs0. split; [|auto]. eapply two_pair; eauto. }
    destruct (two (c :: t) 2) as [[d r]|] eqn:E.
    2:{ exists (-2), []. rewrite Same. cbn [length]. rewrite Nat.add_0_r. split; [reflexivity|].
        split; [right; left; split; [reflexivity|eapply two_none; eauto]|].
        intros bs' H. destruct (Cmp bs' H) as (? & ? & ? & ? & ? & ? & X & _). discriminate. }
    destruct (two_sound _ _ _ _ E) as (p & Ep & Hp & Hr & Hl).
    pose proof (two_rest _ _ _ _ E) as Hle.
    destruct d as [|a [|b [|]]]; cbn [length] in *; try lia.
    + exists 1, []. cbn [length]. rewrite Same, Nat.add_0_r. split; [reflexivity|].
      split.
      * right; right. split; [reflexivity|]. rewrite Ep, (Hr ltac:(lia)), app_nil_r. exact Hp.
      * intros bs' H. destruct (Cmp bs' H) as (? & ? & ? & ? & ? & ? & X & _). discriminate.
    + exists 1, []. cbn [length]. rewrite Same, Nat.add_0_r. split; [reflexivity|].
      split.
      * right; right. split; [reflexivity|]. rewrite Ep, (Hr ltac:(lia)), app_nil_r. exact Hp.
      * intros bs' H. destruct (Cmp bs' H) as (? & ? & ? & ? & ? & ? & X & _). discriminate.
    + destruct (two_two _ _ _ E eq_refl) as (sp1 & a' & va & sp2 & b' & vb & Et & H1 & H2 & Ha & Hbb & Ed).
      injection Ed as <- <-.
      rewrite wr_Ret by lia. cbn [bind].
      assert (Hnr : no_nul r) by (rewrite Ep in Hn; apply no_nul_app in Hn; tauto).
      assert (Hpl : (2 <= length p)%nat).
      { apply (f_equal (@length Z)) in Ep. rewrite app_length in Ep. cbn [length] in Ep. lia. }
      replace (length (pre ++ c :: t) - length r)%nat with (length (pre ++ p))
        by (rewrite Ep, !app_length; lia).
      rewrite Ep, (app_assoc pre).
      assert (Hlt : S (length t) = (length p + length r)%nat)
        by (apply (f_equal (@length Z)) in Ep; rewrite app_length in Ep; exact Ep).
      destruct (IH r (pre ++ p) (max - 1)%nat
        (upd buf n (u8 (xvalue a * 16 + xvalue b))) (S n)) as (x & bs & Eq & Hres & Hcmp); auto; try lia.
      { rewrite upd_length. lia. }
      rewrite Eq. rewrite (xvalue_ok _ _ Ha), (xvalue_ok _ _ Hbb) in *.
      pose proof (xdigit_range _ _ Ha) as Ra. pose proof (xdigit_range _ _ Hbb) as Rb.
      rewrite u8_id by lia.
      exists x, (va * 16 + vb :: bs). split; [|split].
      * f_equal. f_equal; [f_equal|cbn [length]; lia]. cbn [length].
        rewrite upd_split by lia.
        assert (Hfl : length (firstn n buf ++ [va * 16 + vb]) = S n)
          by (rewrite app_length, firstn_length_le by lia; cbn; lia).
        replace (firstn n buf ++ (va * 16 + vb) :: skipn (S n) buf)
          with ((firstn n buf ++ [va * 16 + vb]) ++ skipn (S n) buf) by (now rewrite <- app_assoc).
        rewrite <- Hfl at 1. rewrite firstn_length_app. rewrite <- app_assoc. cbn [app]. do 3 f_equal.
        rewrite skipn_app, Hfl. rewrite skipn_all2 by lia. cbn [app].
        rewrite skipn_skipn'. f_equal. lia.
      * destruct Hres as [[-> Hh]|[[-> Hh]|[-> Hh]]].
        -- left. split; [reflexivity|]. rewrite <- Ep, Et. econstructor; eauto.
        -- right; left. split; [reflexivity|]. rewrite hexish_app. tauto.
        -- right; right. split; [reflexivity|]. rewrite hexish_app. tauto.
      * intros bs' H. rewrite <- Ep in H. destruct (Cmp bs' H) as (a2 & va2 & b2 & vb2 & r2 & bs2 & X & Y1 & Y2 & Y3 & ->).
        injection X as -> -> ->. destruct (Hcmp bs2 Y3) as [-> ->]. split; [reflexivity|].
        apply xvalue_ok in Y1, Y2, Ha, Hbb. congruence.
Qed.

Lemma parse_hex_result text buf max : no_nul text -> (length text <= 2 * max)%nat ->
  (max <= length buf)%nat ->
  exists r bs, parse_hex text buf max = Ret (r, bs ++ skipn (length bs) buf, length bs) /\
    (r = 0 /\ hex_of text bs \/ r = -2 /\ ~ hexish text \/ r = 1 /\ hexish text) /\
    (forall bs', hex_of text bs' -> r = 0 /\ bs = bs').
Proof.
  intros Hn Hm Hb. unfold parse_hex.
  exact (hex_loop_result (S (length text)) text [] max buf 0 Hn ltac:(lia) Hm ltac:(lia)).
Qed.
Lemma arg_size (t : list Z) : (length t <= 2 * ((length t + 1) / 2))%nat.
Proof. pose proof (Nat.div_mod (length t + 1) 2 ltac:(lia)). pose proof (Nat.mod_upper_bound (length t + 1) 2 ltac:(lia)). lia. Qed.

(** ** Files *)
Lemma put_grow buf (d : list Z) junk k : (length d <= k)%nat ->
  put (buf ++ repeat junk k) (length buf) d = Ret (buf ++ d ++ repeat junk (k - length d)).
Proof.
  intros H. rewrite put_Ret by (rewrite app_length, repeat_length; lia). f_equal.
  rewrite firstn_length_app. f_equal. f_equal.
  rewrite skipn_app. rewrite skipn_all2 by lia. cbn [app].
  replace (length buf + length d - length buf)%nat with (length d) by lia.
  replace k with (length d + (k - length d))%nat at 1 by lia. rewrite repeat_app.
  rewrite <- (repeat_length junk (length d)) at 1. now rewrite skipn_length_app.
Qed.

Lemma load_run block : (0 < block)%nat -> forall fuel content junk pre extra,
  (length content < fuel)%nat -> extra = [] ->
  exists extra', load_loop block fuel file_stream junk content (pre ++ extra) (length pre) =
    Ret (Some (pre ++ content ++ extra', (length pre + length content)%nat)).
Proof.
  intros Hk. induction fuel as [|fuel IH]; intros content junk pre extra Hf ->; [lia|].
  rewrite app_nil_r. cbn [load_loop]. unfold file_stream at 1.
  assert (Hl : (length (firstn block content) <= block)%nat) by (rewrite firstn_length; lia).
  rewrite put_grow by exact Hl. cbn [bind].
  destruct (Nat.ltb_spec (length content) block) as [H|H].
  - rewrite (firstn_all2 content) by lia. eauto.
  - assert (E : length (firstn block content) = block) by (rewrite firstn_length; lia).
    rewrite E, Nat.sub_diag. cbn [repeat].
    replace (length pre + block)%nat with (length (pre ++ firstn block content)) by (rewrite app_length; lia).
    rewrite app_assoc.
    destruct (IH (skipn block content) junk (pre ++ firstn block content) []) as (x & Ex).
    { rewrite skipn_length. lia. }
    { reflexivity. }
    exists x. rewrite Ex. do 3 f_equal.
    + rewrite <- app_assoc. f_equal. rewrite app_assoc. now rewrite firstn_skipn.
    + rewrite app_length, skipn_length, E. lia.
Qed.
Lemma load_file content junk :
  exists extra, load_from_file (S (length content)) file_stream junk content =
    Ret (Some (content ++ extra, length content)).
Proof.
  unfold load_from_file. exact (load_run (Z.to_nat 4096) ltac:(lia) (S (length content)) content junk [] [] ltac:(lia) eq_refl).
Qed.

(** Any stream that returns no more than asked for stays inside the buffer. *)
Lemma load_safe St (fread : stream St) block :
  (forall s n, (length (fst (fst (fst (fread s n)))) <= n)%nat) ->
  forall fuel junk s buf total, (total <= length buf)%nat ->
  load_loop block fuel fread junk s buf total <> UB /\
  (forall b n, load_loop block fuel fread junk s buf total = Ret (Some (b, n)) -> (n <= length b)%nat).
Proof.
  intros Hr. induction fuel as [|fuel IH]; intros junk s buf total Ht; [split; discriminate|].
  cbn [load_loop]. pose proof (Hr s block) as Hl. destruct (fread s block) as [[[data eof] err] s'].
  cbn [fst] in Hl. rewrite put_Ret by (rewrite app_length, repeat_length; lia). cbn [bind].
  set (b' := _ ++ _ ++ _). assert (Hb : (total + length data <= length b')%nat).
  { subst b'. rewrite !app_length, firstn_length, app_length, repeat_length. lia. }
  destruct err; [split; discriminate|]. destruct eof; [|apply IH; exact Hb].
  split; [discriminate|]. intros b n H. injection H as <- <-. exact Hb.
Qed.

(** ** Dumps *)
Lemma itr_next_nil : ber_itr_next [] = Ret (0, None, []).
Proof. reflexivity. Qed.

Lemma prim_flag t : is_byte (b_flags t) -> (b_flags t / 32) mod 2 = 0 -> ber_is_constructed t = false.
Proof. intros H E. rewrite flags_constructed by auto. rewrite E. reflexivity. Qed.
Lemma cons_flag t : is_byte (b_flags t) -> (b_flags t / 32) mod 2 = 1 -> ber_is_constructed t = true.
Proof. intros H E. rewrite flags_constructed by auto. rewrite E. reflexivity. Qed.

Lemma dump_listing (leaf : leaf_fun) (note_of : Z -> list Z -> note -> Prop) :
  (forall t n, note_of (b_tag t) (b_val t) n -> b_len t = Zlen (b_val t) -> leaf t = Ret (inl n)) ->
  forall d enc evs, listing note_of d enc evs -> forall fuel buf valid ign,
  small enc -> (length enc < fuel)%nat -> Zlen buf = valid + Zlen enc ->
  dump_loop leaf fuel buf enc valid d ign = Ret (evs, Zlen buf).
Proof.
  intros Hleaf. induction 1 as [d|d enc tag flags v n encs evs He Hf Hn Hl IH
    |d enc tag flags v inner encs evs He Hf Hi IHi Hl IH]; intros fuel buf valid ign Hs Hfu Hz.
  - destruct fuel; [lia|]. cbn [dump_loop]. rewrite itr_next_nil. cbn [bind Z.leb Z.compare].
    unfold dump_end. cbn [Z.ltb Z.compare]. do 2 f_equal. unfold Zlen in *; cbn [length] in *. lia.
  - destruct fuel; [lia|]. cbn [dump_loop].
    destruct (itr_next_encodes _ _ _ _ encs He Hs) as (off & ->). cbn [bind].
    pose proof (encodes_vlen _ _ _ _ He). rewrite app_length in Hfu. unfold Zlen in *. rewrite app_length in Hz.
    destruct (Z.leb_spec (Z.of_nat (length enc)) 0); [lia|].
    rewrite prim_flag by (cbn [b_flags]; first [exact Hf | eapply encodes_flags; eauto]).
    rewrite (Hleaf _ n) by (cbn [b_tag b_val b_len]; auto). cbn [bind].
    rewrite IH by (try lia; eapply small_app_r; eauto). reflexivity.
  - destruct fuel; [lia|]. cbn [dump_loop].
    destruct (itr_next_encodes _ _ _ _ encs He Hs) as (off & ->). cbn [bind].
    pose proof (encodes_vlen _ _ _ _ He). rewrite app_length in Hfu. unfold Zlen in *. rewrite app_length in Hz.
    destruct (Z.leb_spec (Z.of_nat (length enc)) 0); [lia|].
    rewrite cons_flag by (cbn [b_flags]; first [exact Hf | eapply encodes_flags; eauto]).
    cbn [b_tag b_val b_len].
    rewrite IHi by (solve [lia | eapply small_le; [exact Hs|rewrite app_length; lia]]). cbn [bind].
    destruct (Z.ltb_spec (Z.of_nat (length v)) 0); [lia|]. rewrite Z.ltb_irrefl.
    rewrite IH by (try lia; eapply small_app_r; eauto). reflexivity.
Qed.

(** What one step of the iterator gives. *)
Lemma piece_cases p t : bytes p -> piece p t ->
  b_len t = Zlen (b_val t) /\ is_byte (b_flags t) /\ bytes (b_val t) /\ (length (b_val t) + 2 <= length p)%nat /\
  (ber_is_constructed t = false -> encodes p (b_tag t) (b_flags t) (b_val t) /\ (b_flags t / 32) mod 2 = 0) /\
  (ber_is_constructed t = true -> exists id lf, p = id ++ lf ++ b_val t /\ identifier id /\
     constructed (hd 0 id) /\ b_tag t = be id /\ (length_octets lf (b_len t) \/ lf = [128])).
Proof.
  intros Hb [[He Hl]|(id & Hp & Hid & Hc & Ht & Hf & Hl)].
  - pose proof (encodes_flags _ _ _ _ He) as Hfb. pose proof (encodes_vlen _ _ _ _ He).
    split; [auto|]. split; [auto|]. split; [apply He|]. split; [lia|].
    rewrite flags_constructed by auto. split.
    + intros E. split; [auto|]. destruct (Z.eqb_spec ((b_flags t / 32) mod 2) 1); [discriminate|lia].
    + intros E. apply Z.eqb_eq in E. destruct He as [_ (id & lf & Hp & Hid & Htag & Hlf & Hfl)].
      exists id, lf. split; [auto|]. split; [auto|]. split.
      { rewrite Hfl in E. now apply constructed_flag in E. }
      split; [auto|]. left. now rewrite Hl.
  - assert (Hfb : is_byte (b_flags t)).
    { rewrite Hf. pose proof (identifier_bytes _ Hid) as Hib. pose proof (identifier_length _ Hid).
      destruct id as [|b id]; cbn [length] in *; [lia|].
      assert (Hbb : is_byte b) by (inversion Hib; assumption).
      unfold class_bits; cbn [hd]. unfold is_byte in *; lia. }
    split; [auto|]. split; [auto|]. split.
    { rewrite Hp in Hb. apply bytes_app in Hb. destruct Hb as [_ Hb]. inversion Hb; auto. }
    split.
    { rewrite Hp, app_length. cbn [length]. apply identifier_length in Hid. lia. }
    rewrite flags_constructed by auto.
    assert (Hcon : (b_flags t / 32) mod 2 = 1) by (rewrite Hf; now apply constructed_flag).
    rewrite Hcon. split; [discriminate|]. intros _. exists id, [128]. split; [exact Hp|]. auto 6.
Qed.

Lemma dump_end_account buf valid d ign r evs e : 0 <= valid <= Zlen buf ->
  dump_end buf valid d ign r = (evs, e) ->
  valid <= e <= Zlen buf /\ exists ps, Forall2 shows evs ps /\
    concat ps = firstn (Z.to_nat (e - valid)) (skipn (Z.to_nat valid) buf).
Proof.
  intros Hv. unfold dump_end. destruct (r <? 0).
  - destruct (ign && _ && _)%bool; intros H; injection H as <- <-.
    + split; [lia|]. exists [skipn (Z.to_nat valid) buf]. split; [repeat constructor|].
      cbn [concat]. rewrite app_nil_r, firstn_all2; [reflexivity|].
      rewrite skipn_length. unfold Zlen in *. lia.
    + split; [lia|]. exists [[]]. split; [repeat constructor|]. rewrite Z.sub_diag. reflexivity.
  - intros H; injection H as <- <-. split; [lia|]. exists []. split; [constructor|].
    rewrite Z.sub_diag. reflexivity.
Qed.

Lemma dump_account leaf : forall fuel buf valid d ign evs e, bytes buf -> small buf ->
  0 <= valid <= Zlen buf ->
  dump_loop leaf fuel buf (skipn (Z.to_nat valid) buf) valid d ign = Ret (evs, e) ->
  valid <= e <= Zlen buf /\ exists ps, Forall2 shows evs ps /\
    concat ps = firstn (Z.to_nat (e - valid)) (skipn (Z.to_nat valid) buf).
Proof.
  induction fuel as [|fuel IH]; intros buf valid d ign evs e Hb Hs Hv H; [discriminate|].
  cbn [dump_loop] in H. set (itr := skipn (Z.to_nat valid) buf) in *.
  assert (Hbi : bytes itr) by (subst itr; auto).
  assert (Hli : length itr = (length buf - Z.to_nat valid)%nat) by (subst itr; apply skipn_length).
  assert (Hsi : small itr) by (eapply small_le; [exact Hs|lia]).
  destruct (itr_next_step itr Hbi Hsi) as (r & t & Ed & Hok & En). rewrite En in H; cbn [bind] in H.
  destruct (Z.leb_spec r 0) as [Hr|Hr].
  { injection H as H. subst itr. eapply dump_end_account; eauto. }
  destruct t as [t|]; [|discriminate].
  destruct (decode_piece itr r t Hbi Hsi Ed) as [Hp Hlen].
  set (p := firstn (Z.to_nat r) itr) in *. set (rest := skipn (Z.to_nat r) itr) in *.
  assert (Eitr : itr = p ++ rest) by (symmetry; apply firstn_skipn).
  assert (Hlp : length p = Z.to_nat r) by (apply firstn_length_le; lia).
  destruct (piece_cases p t) as (Hl & Hfb & Hvb & Hvl & Hprim & Hcons); auto.
  { subst p. auto. }
  assert (Hlr : length rest = (length itr - Z.to_nat r)%nat) by (subst rest; apply skipn_length).
  assert (Erest : rest = skipn (Z.to_nat (valid + r)) buf).
  { subst rest itr. rewrite skipn_skipn'. f_equal. lia. }
  assert (Hv2 : 0 <= valid + r <= Zlen buf) by (unfold Zlen in *; lia).
  destruct (ber_is_constructed t).
  - destruct (Hcons eq_refl) as (id & lf & Ep & Hid & Hc & Htag & Hlf). clear Hprim Hcons.
    assert (Hvs : small (b_val t)) by (eapply small_le; [exact Hs|lia]).
    destruct (dump_loop leaf fuel (b_val t) (b_val t) 0 (S d) ign) as [[kevs r2]| |] eqn:Ek; try discriminate.
    cbn [bind] in H.
    destruct (IH (b_val t) 0 (S d) ign kevs r2 Hvb Hvs) as (Hr2 & kps & Hks & Hkc).
    { unfold Zlen; lia. }
    { exact Ek. }
    change (skipn (Z.to_nat 0) (b_val t)) with (b_val t) in Hkc. rewrite Z.sub_0_r in Hkc.
    destruct (Z.ltb_spec r2 0); [lia|].
    assert (Hhd : Z.of_nat (length (id ++ lf)) = r - b_len t).
    { rewrite Ep, !app_length in Hlp. rewrite app_length. unfold Zlen in *. lia. }
    assert (Hsh : shows (ENode d (b_tag t) (b_len t)) (id ++ lf)) by (rewrite Htag; now apply sh_node).
    destruct (Z.ltb_spec r2 (b_len t)) as [Hlt|Hge].
    + injection H as <- <-. split; [unfold Zlen in *; lia|].
      exists ((id ++ lf) :: kps). split; [constructor; auto|]. cbn [concat]. rewrite Hkc.
      replace itr with ((id ++ lf) ++ b_val t ++ rest)
        by (rewrite Eitr, Ep, <- !app_assoc; reflexivity).
      replace (Z.to_nat (valid + (r - b_len t) + r2 - valid))
        with (length (id ++ lf) + Z.to_nat r2)%nat by lia.
      rewrite firstn_app_2. f_equal. rewrite firstn_app.
      replace (Z.to_nat r2 - length (b_val t))%nat with 0%nat by (unfold Zlen in *; lia).
      cbn [firstn]. now rewrite app_nil_r.
    + assert (r2 = b_len t) by (unfold Zlen in *; lia). subst r2.
      destruct (dump_loop leaf fuel buf rest (valid + (r - b_len t) + b_len t) d ign)
        as [[evs' e']| |] eqn:E2; try discriminate. cbn [bind] in H. injection H as <- <-.
      replace (valid + (r - b_len t) + b_len t) with (valid + r) in E2 by lia.
      rewrite Erest in E2.
      destruct (IH buf (valid + r) d ign evs' e' Hb Hs Hv2 E2) as (He & ps & Hps & Hpc).
      split; [lia|]. exists (((id ++ lf) :: kps) ++ ps). split.
      { change (ENode d (b_tag t) (b_len t) :: kevs ++ evs') with ((ENode d (b_tag t) (b_len t) :: kevs) ++ evs').
        apply Forall2_app; [constructor; auto|auto]. }
      rewrite concat_app. cbn [concat]. rewrite Hkc, Hpc, <- Erest.
      rewrite (firstn_all2 (b_val t)) by (unfold Zlen in *; lia).
      rewrite Eitr. replace (Z.to_nat (e' - valid)) with (length p + Z.to_nat (e' - (valid + r)))%nat by lia.
      rewrite firstn_app_2. f_equal. rewrite Ep. now rewrite <- app_assoc.
  - destruct (Hprim eq_refl) as (He & Hfl). clear Hprim Hcons.
    assert (Hgen : forall n evs' e', valid + r <= e' <= Zlen buf ->
      (exists ps, Forall2 shows evs' ps /\
         concat ps = firstn (Z.to_nat (e' - (valid + r))) (skipn (Z.to_nat (valid + r)) buf)) ->
      valid <= e' <= Zlen buf /\ exists ps, Forall2 shows (ELeaf d (b_tag t) (b_val t) n :: evs') ps /\
         concat ps = firstn (Z.to_nat (e' - valid)) itr).
    { intros n evs' e' He' (ps & Hps & Hpc). split; [lia|]. exists (p :: ps). split.
      { constructor; auto. eapply sh_leaf; eauto. }
      cbn [concat]. rewrite Hpc, <- Erest, Eitr.
      replace (Z.to_nat (e' - valid)) with (length p + Z.to_nat (e' - (valid + r)))%nat by lia.
      now rewrite firstn_app_2. }
    destruct (leaf t) as [[n|x]| |]; try discriminate; cbn [bind] in H.
    + destruct (dump_loop leaf fuel buf rest (valid + r) d ign) as [[evs' e']| |] eqn:E2; try discriminate.
      cbn [bind] in H. injection H as <- <-. rewrite Erest in E2.
      destruct (IH buf (valid + r) d ign evs' e' Hb Hs Hv2 E2) as (He' & Hps). now apply Hgen.
    + destruct (dump_end buf (valid + r) d ign x) as [evs' e'] eqn:E2. injection H as <- <-.
      destruct (dump_end_account _ _ _ _ _ _ _ Hv2 E2) as (He' & Hps). now apply Hgen.
Qed.

Lemma dump_all leaf buf d ign evs : bytes buf -> small buf -> dump leaf buf d ign = Ret evs ->
  exists ps, Forall2 shows evs ps /\ concat ps = buf.
Proof.
  intros Hb Hs H. unfold dump, ber_itr_init in H.
  destruct (dump_loop leaf (S (length buf)) buf buf 0 d ign) as [[evs' r]| |] eqn:E; try discriminate.
  cbn [bind] in H. injection H as <-.
  destruct (dump_account leaf (S (length buf)) buf 0 d ign evs' r Hb Hs) as (Hr & ps & Hps & Hpc).
  { unfold Zlen; lia. }
  { exact E. }
  change (skipn (Z.to_nat 0) buf) with buf in Hpc. rewrite Z.sub_0_r in Hpc.
  destruct (Z.ltb_spec r 0); [lia|]. destruct (Z.leb_spec 0 r); [|lia]. cbn [app andb].
  destruct (Z.ltb_spec r (Zlen buf)).
  - exists (ps ++ [skipn (Z.to_nat r) buf]). split.
    + apply Forall2_app; auto. repeat constructor.
    + rewrite concat_app, Hpc. cbn [concat]. rewrite app_nil_r. apply firstn_skipn.
  - exists ps. rewrite app_nil_r. split; auto. rewrite Hpc. apply firstn_all2. unfold Zlen in *; lia.
Qed.

(** Whatever the input, a dump ends, and fails only where printing a field does. *)
Lemma dump_total (leaf : leaf_fun) :
  (forall t, bytes (b_val t) -> b_len t = Zlen (b_val t) -> leaf t <> NoFuel) ->
  forall fuel buf itr valid d ign, bytes itr -> small itr -> (length itr < fuel)%nat ->
  (exists evs e, dump_loop leaf fuel buf itr valid d ign = Ret (evs, e)) \/
  (dump_loop leaf fuel buf itr valid d ign = UB /\
   exists pre enc post t, itr = pre ++ enc ++ post /\
     encodes enc (b_tag t) (b_flags t) (b_val t) /\ b_len t = Zlen (b_val t) /\ leaf t = UB).
Proof.
  intros Hnf. induction fuel as [|fuel IH]; intros buf itr valid d ign Hbi Hsi Hf; [lia|].
  cbn [dump_loop].
  destruct (itr_next_step itr Hbi Hsi) as (r & t & Ed & Hok & En). rewrite En; cbn [bind].
  destruct (Z.leb_spec r 0) as [Hr|Hr].
  { left. destruct (dump_end buf valid d ign r); eauto. }
  destruct t as [t|]; cbn [ber_ok] in Hok; [|lia].
  destruct (decode_piece itr r t Hbi Hsi Ed) as [Hp Hlen].
  set (p := firstn (Z.to_nat r) itr) in *. set (rest := skipn (Z.to_nat r) itr) in *.
  assert (Eitr : itr = p ++ rest) by (symmetry; apply firstn_skipn).
  assert (Hlp : length p = Z.to_nat r) by (apply firstn_length_le; lia).
  destruct (piece_cases p t) as (Hl & Hfb & Hvb & Hvl & Hprim & Hcons); auto.
  { subst p. auto. }
  assert (Hlr : length rest = (length itr - Z.to_nat r)%nat) by (subst rest; apply skipn_length).
  assert (Hbr : bytes rest) by (subst rest; auto).
  assert (Hsr : small rest) by (eapply small_le; [exact Hsi|lia]).
  assert (Lift : forall pre enc post, rest = pre ++ enc ++ post -> itr = (p ++ pre) ++ enc ++ post)
    by (intros pre enc post E; rewrite Eitr, E; now rewrite <- app_assoc).
  destruct (ber_is_constructed t).
  - destruct (Hcons eq_refl) as (id & lf & Ep & _).
    assert (Hvs : small (b_val t)) by (eapply small_le; [exact Hsi|lia]).
    destruct (IH (b_val t) (b_val t) 0 (S d) ign Hvb Hvs ltac:(lia))
      as [(kevs & r2 & ->)|(-> & pre & enc & post & t2 & E2 & H2)].
    2:{ right. split; [reflexivity|]. exists (id ++ lf ++ pre), enc, (post ++ rest), t2. split; [|exact H2].
        rewrite Eitr, Ep, E2. now rewrite <- !app_assoc. }
    cbn [bind]. destruct (r2 <? 0); [eauto|]. destruct (r2 <? b_len t); [eauto|].
    destruct (IH buf rest (valid + (r - b_len t) + r2) d ign Hbr Hsr ltac:(lia))
      as [(evs & e & ->)|(-> & pre & enc & post & t2 & E2 & H2)].
    { left. cbn [bind]. eauto. }
    right. split; [reflexivity|]. exists (p ++ pre), enc, post, t2. split; [auto|exact H2].
  - destruct (Hprim eq_refl) as (He & _). pose proof (Hnf t Hvb Hl) as Hnt.
    destruct (leaf t) as [[n|x]| |] eqn:El; cbn [bind].
    + destruct (IH buf rest (valid + r) d ign Hbr Hsr ltac:(lia))
        as [(evs & e & ->)|(-> & pre & enc & post & t2 & E2 & H2)].
      { left. cbn [bind]. eauto. }
      right. split; [reflexivity|]. exists (p ++ pre), enc, post, t2. split; [auto|exact H2].
    + left. destruct (dump_end buf (valid + r) d ign x). eauto.
    + right. split; [reflexivity|]. exists [], p, rest, t. auto.
    + contradiction.
Qed.

Lemma is_string_ok tag : ber_is_string tag = true <-> string_tag tag.
Proof. unfold ber_is_string, string_tag. cbn [existsb]. lia. Qed.

Lemma ber_leaf_note t n : ber_note (b_tag t) (b_val t) n -> b_len t = Zlen (b_val t) ->
  ber_leaf t = Ret (inl n).
Proof.
  intros H Hl. unfold ber_leaf. rewrite Hl.
  destruct H as [(Hs & H1 & ->)|[(Hs & H1 & ->)|[(Ht & arcs & Ho & H10 & H40 & ->)|(Hs & H6 & ->)]]].
  - rewrite (proj2 (is_string_ok _) Hs). destruct (Z.ltb_spec (Zlen (b_val t)) 1024); [|lia].
    rewrite put_Ret by (rewrite repeat_length; unfold Zlen in *; lia). cbn [bind].
    rewrite wr_Ret; [reflexivity|]. cbn [firstn app]. rewrite app_length, skipn_length, repeat_length.
    unfold Zlen in *. lia.
  - rewrite (proj2 (is_string_ok _) Hs). destruct (Z.ltb_spec (Zlen (b_val t)) 1024); [lia|]. reflexivity.
  - rewrite Ht. change (ber_is_string 6) with false. cbn [Z.eqb Pos.eqb].
    destruct Ho as (b0 & a1 & a2 & encs & vs & Ev & -> & H1 & H2 & H3 & H4 & H5 & H6).
    rewrite Ev in *. unfold Zlen in *. cbn [length] in *.
    rewrite (oid_decode_run b0 a1 a2 encs vs) by (auto; lia). cbn [bind Z.eqb negb o_value o_length].
    replace (2 + length vs)%nat with (length (a1 :: a2 :: vs)) by reflexivity.
    rewrite sub_Ret by (rewrite app_length; lia). cbn [bind skipn]. rewrite firstn_length_app. reflexivity.
  - destruct (ber_is_string (b_tag t)) eqn:E; [apply is_string_ok in E; contradiction|].
    destruct (Z.eqb_spec (b_tag t) 6); [contradiction|]. reflexivity.
Qed.

Lemma ber_leaf_total t : bytes (b_val t) -> b_len t = Zlen (b_val t) ->
  (exists x, ber_leaf t = Ret x) \/
  (ber_leaf t = UB /\ b_tag t = 6 /\ (1 <= length (b_val t) < 40)%nat /\ (8 < subid_count (tl (b_val t)))%nat).
Proof.
  intros Hb Hl. unfold ber_leaf. rewrite Hl.
  destruct (ber_is_string (b_tag t)).
  { left. destruct (Z.ltb_spec (Zlen (b_val t)) 1024); [|eauto].
    rewrite put_Ret by (rewrite repeat_length; unfold Zlen in *; lia). cbn [bind].
    rewrite wr_Ret; [cbn [bind]; eauto|]. cbn [firstn app]. rewrite app_length, skipn_length, repeat_length.
    unfold Zlen in *. lia. }
  destruct (Z.eqb_spec (b_tag t) 6) as [E6|_]; [|eauto].
  pose proof (oid_decode_safe (b_val t) Hb) as H.
  destruct (Nat.leb_spec 1 (length (b_val t))), (Nat.ltb_spec (length (b_val t)) 40),
    (Nat.ltb_spec 8 (subid_count (tl (b_val t)))); cbn [andb] in H;
    try (destruct H as (r & o & -> & Ho & Hv & _); left; cbn [bind];
         destruct (negb (r =? 0)); [eauto|]; rewrite sub_Ret by lia; cbn [bind]; eauto).
  right. rewrite H. auto.
Qed.

(** ** Debug events *)
Lemma debug_run_app cs1 : forall d cs2,
  debug_run d (cs1 ++ cs2) = debug_run d cs1 ++ debug_run (fold_left (fun d c => fst (debug_step d c)) cs1 d) cs2.
Proof.
  induction cs1 as [|c cs1 IH]; intros d cs2; [reflexivity|]. cbn [app debug_run fold_left].
  destruct (debug_step d c) as [d' o] eqn:E. cbn [fst]. now rewrite IH, app_assoc.
Qed.
Lemma debug_keeps cs : (forall m l f, ~ In (DInit m l f) cs) -> forall d,
  fold_left (fun d c => fst (debug_step d c)) cs d = d.
Proof.
  induction cs as [|c cs IH]; intros H d; [reflexivity|]. cbn [fold_left].
  destruct c as [m l f|]; [exfalso; apply (H m l f); left; reflexivity|]. cbn [debug_step fst].
  apply IH. intros m l f I. apply (H m l f). right. exact I.
Qed.
Lemma in_force_state cs m l f : in_force cs m l f ->
  fold_left (fun d c => fst (debug_step d c)) cs dbg0 = mkdbg m l f.
Proof.
  intros [cs' H|before m' l' f' after H].
  - apply debug_keeps. exact H.
  - rewrite fold_left_app. cbn [fold_left debug_step fst]. apply debug_keeps. exact H.
Qed.
Lemma in_force_total cs : exists m l f, in_force cs m l f.
Proof.
  induction cs as [|c cs IH] using rev_ind.
  - exists 0, 0, None. constructor. intros m l f I. inversion I.
  - destruct IH as (m & l & f & H). destruct c as [m' l' f'|s lv ty msg data sec ns].
    + exists m', l', f'. change (cs ++ [DInit m' l' f']) with (cs ++ DInit m' l' f' :: []). constructor.
      intros ? ? ? I. inversion I.
    + exists m, l, f. destruct H as [cs' H|before m l f after H].
      * constructor. intros m l f I. apply in_app_or in I. destruct I as [I|[I|[]]]; [eapply H; eauto|discriminate].
      * rewrite <- app_assoc. cbn [app]. constructor. intros m' l' f' I. apply in_app_or in I.
        destruct I as [I|[I|[]]]; [eapply H; eauto|discriminate].
Qed.
