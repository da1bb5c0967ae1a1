(** The exact texts for status bytes (C78). *)
From Coq Require Import String.
From Verif Require Import Base BaseLemmas StrModel CapduModel CapduSpec CapduProofs FlagsSpec FlagsProofs FlagsTexts StatusSpec.
Open Scope string_scope.
Open Scope Z_scope.
Open Scope list_scope.
Notation length := List.length.

Definition meaning (sw1 sw2 : Z) : option string :=
  match find (fun e => (fst (fst e) =? sw1) && (snd (fst e) =? sw2)) sw_meanings with Some e => Some (snd e) | None => None end.
Definition sw_exactly (sw1 sw2 : Z) : list Z :=
  match meaning sw1 sw2 with Some t => lit t | None => match sw_numbered sw1 sw2 with Some s => s | None => sw_class_text (iso_sw_class sw1 sw2) end end.
Lemma p_u_decimal v : is_byte v -> p_u v = decimal_text v.
Proof.
  intros B. pose proof (byte_sweep (fun v => ll_eqb [p_u v] [decimal_text v]) ltac:(vm_compute; reflexivity) v B) as Q. apply ll_eqb_eq in Q. congruence.
Qed.
Lemma land_high v : is_byte v -> Z.land v 0xF0 = v / 16 * 16.
Proof. intros B. apply Z.eqb_eq. revert v B. apply (byte_sweep (fun v => Z.land v 0xF0 =? v / 16 * 16)). vm_compute; reflexivity. Qed.
Lemma land_low v : is_byte v -> Z.land v 0x0F = v mod 16.
Proof. intros B. apply Z.eqb_eq. revert v B. apply (byte_sweep (fun v => Z.land v 0x0F =? v mod 16)). vm_compute; reflexivity. Qed.
(** The rows of the standard's table for one SW1. *)
Definition rows (sw1 : Z) : list (Z * string) := map (fun e => (snd (fst e), snd e)) (filter (fun e => fst (fst e) =? sw1) sw_meanings).
Lemma meaning_rows sw1 sw2 : meaning sw1 sw2 = lookup sw2 (rows sw1).
Proof.
  unfold meaning, rows, lookup. induction sw_meanings as [|[[a b] t] l IH]; [reflexivity|]. cbn [find filter fst snd].
  destruct (a =? sw1); cbn [andb map find fst snd]; [|exact IH]. destruct (b =? sw2); [reflexivity|exact IH].
Qed.
Lemma sw_none sw1 sw2 : rows sw1 = [] -> sw_numbered sw1 sw2 = None -> sw_exactly sw1 sw2 = sw_class_text (iso_sw_class sw1 sw2).
Proof. intros R N. unfold sw_exactly. rewrite meaning_rows, R, N. reflexivity. Qed.
(** SW1 not of the form 6X, nor 90. *)
Lemma sw_outside sw1 sw2 : is_byte sw1 -> ~ (0x61 <= sw1 <= 0x6F) -> sw1 <> 0x90 -> sw_text sw1 sw2 = sw_exactly sw1 sw2.
Proof.
  intros B O N. assert (Bs : 0 <= sw1 < 256) by exact B. rewrite sw_none.
  - unfold sw_text, iso_sw_class. rewrite (land_high sw1 B). destruct (Z.eqb_spec sw1 0x90); [lia|]. destruct (Z.eqb_spec sw1 0x61); [lia|]. cbn [andb orb].
    destruct (Z.leb_spec 0x90 sw1), (Z.leb_spec sw1 0x9F), (Z.leb_spec 0x61 sw1), (Z.leb_spec sw1 0x6F); try lia; cbn [andb orb negb sw_class_text];
      destruct (Z.eqb_spec (sw1 / 16 * 16) 0x60), (Z.eqb_spec (sw1 / 16 * 16) 0x90); try lia; cbn [andb orb negb]; try reflexivity;
      destruct (Z.eqb_spec sw1 0x60); try lia; try reflexivity; rewrite orb_true_r; reflexivity.
  - assert (Q : (0x61 <=? sw1) && (sw1 <=? 0x6F) || (sw1 =? 0x90) || (match rows sw1 with [] => true | _ => false end) = true).
    { revert sw1 B O N Bs. intros v B _ _ _. revert v B. apply (byte_sweep (fun v => (0x61 <=? v) && (v <=? 0x6F) || (v =? 0x90) || (match rows v with [] => true | _ => false end))). vm_compute; reflexivity. }
    destruct (rows sw1); [reflexivity|]. exfalso. destruct (Z.leb_spec 0x61 sw1), (Z.leb_spec sw1 0x6F), (Z.eqb_spec sw1 0x90); try lia; discriminate Q.
  - unfold sw_numbered. destruct (Z.eqb_spec sw1 0x61), (Z.eqb_spec sw1 0x62), (Z.eqb_spec sw1 0x63), (Z.eqb_spec sw1 0x64), (Z.eqb_spec sw1 0x66), (Z.eqb_spec sw1 0x6C); try lia; reflexivity.
Qed.
Lemma sw_sweep sw1 sw2 : is_byte sw1 -> is_byte sw2 -> sw_text sw1 sw2 = sw_exactly sw1 sw2.
Proof.
  intros B1 B2. assert (Bs : 0 <= sw1 < 256) by exact B1. assert (Bt : 0 <= sw2 < 256) by exact B2.
  destruct (Z_le_dec 0x61 sw1) as [L|L]; [destruct (Z_le_dec sw1 0x6F) as [U|U]|].
  - pose proof (land_high sw2 B2) as LH. pose proof (land_low sw2 B2) as LL.
    assert (LB : is_byte (sw2 mod 16)) by (unfold is_byte; pose proof (Z.mod_pos_bound sw2 16); lia).
    assert (C : sw1 = 0x61 \/ sw1 = 0x62 \/ sw1 = 0x63 \/ sw1 = 0x64 \/ sw1 = 0x65 \/ sw1 = 0x66 \/ sw1 = 0x67 \/ sw1 = 0x68 \/ sw1 = 0x69 \/ sw1 = 0x6A \/
      sw1 = 0x6B \/ sw1 = 0x6C \/ sw1 = 0x6D \/ sw1 = 0x6E \/ sw1 = 0x6F) by lia.
    unfold sw_exactly. rewrite meaning_rows.
    repeat (destruct C as [C|C]); subst sw1;
      match goal with |- context [rows ?a] => let r := eval vm_compute in (rows a) in change (rows a) with r end;
      unfold lookup; cbn [find fst snd];
      repeat match goal with |- context [?k =? sw2] => destruct (Z.eqb_spec k sw2) as [<-|?]; [vm_compute; reflexivity|] end;
      unfold sw_text, sw_detail, sw_prefix, sw_numbered, iso_sw_class;
      repeat match goal with |- context [Zpos ?a =? Zpos ?b] => let v := eval vm_compute in (Zpos a =? Zpos b) in change (Zpos a =? Zpos b) with v end;
      repeat match goal with |- context [Z.land (Zpos ?a) ?b] => let v := eval vm_compute in (Z.land (Zpos a) b) in change (Z.land (Zpos a) b) with v end;
      rewrite ?LH, ?LL; try (rewrite <- ?p_u_decimal, <- ?hex2_02X by assumption; reflexivity);
      (match goal with |- context [find (fun e => fst e =? ?a) sw_table] => let r := eval vm_compute in (find (fun e => fst e =? a) sw_table) in change (find (fun e => fst e =? a) sw_table) with r end;
       unfold lookup; cbn [find fst snd andb orb negb];
       repeat match goal with |- context [?k =? sw2] => destruct (Z.eqb_spec k sw2); [lia|] end;
       repeat match goal with |- context [sw2 =? ?k] => destruct (Z.eqb_spec sw2 k); [lia|] end;
       try reflexivity;
       repeat match goal with |- context [?a <=? sw2] => destruct (Z.leb_spec a sw2) | |- context [sw2 <=? ?a] => destruct (Z.leb_spec sw2 a) end; try lia;
       cbn [andb orb negb]; try (rewrite <- ?p_u_decimal by assumption; reflexivity)).
    all: destruct (Z.eqb_spec (sw2 / 16 * 16) 0xC0), (Z.eqb_spec (sw2 / 16) 0xC); try lia; try (rewrite <- ?p_u_decimal by assumption; reflexivity).
  - destruct (Z.eqb_spec sw1 0x90) as [->|NE].
    + destruct (Z.eqb_spec sw2 0) as [->|N2]; [vm_compute; reflexivity|]. unfold sw_exactly. rewrite meaning_rows.
      change (rows 0x90) with [(0x00, "Normal"%string)]. unfold lookup, sw_text. cbn [find fst snd]. destruct (Z.eqb_spec 0 sw2); [lia|]. destruct (Z.eqb_spec sw2 0); [lia|].
      unfold sw_numbered, iso_sw_class. destruct (Z.eqb_spec sw2 0); [lia|]. reflexivity.
    + apply sw_outside; try assumption; lia.
  - apply sw_outside; try assumption; lia.
Qed.
Lemma sw_exactly_says sw1 sw2 : sw_says sw1 sw2 (sw_exactly sw1 sw2).
Proof.
  unfold sw_says, sw_exactly, meaning. destruct (find _ sw_meanings) as [[[a b] t]|] eqn:F.
  - left. apply find_some in F as (I & E). cbn in E. exists t. split; [|reflexivity]. assert (a = sw1 /\ b = sw2) as (-> & ->) by lia. exact I.
  - right. assert (N : forall t, ~ In (sw1, sw2, t) sw_meanings) by (intros t I; eapply find_none in F; [|exact I]; cbn in F; lia).
    destruct (sw_numbered sw1 sw2) as [s|]; [left; reflexivity|right; auto].
Qed.
(** For all status bytes and every buffer, the text is the one of the standard. *)
Theorem C78_status_meaning sw1 sw2 : is_byte sw1 -> is_byte sw2 ->
  exists s, sw_says sw1 sw2 s /\ forall str, str <> [] -> exists new, sw1sw2_get_string sw1 sw2 str = Ret (true, new) /\ shown str new s.
Proof.
  intros B1 B2. exists (sw_exactly sw1 sw2). split; [apply sw_exactly_says|intros str NE; rewrite <- sw_sweep by assumption; apply sw_shown; assumption].
Qed.
(** The text is determined. *)
Theorem C78_status_unique sw1 sw2 s t : sw_says sw1 sw2 s -> sw_says sw1 sw2 t -> s = t.
Proof.
  assert (K : forall sw1 sw2 a, In (sw1, sw2, a) sw_meanings -> meaning sw1 sw2 = Some a /\ sw_numbered sw1 sw2 = None).
  { intros x y a. unfold sw_meanings. intros I. repeat (destruct I as [I|I]; [injection I as <- <- <-; split; reflexivity|]). contradiction. }
  intros [(a & Ia & ->)|[Ha|(Na & Ha & ->)]] [(b & Ib & ->)|[Hb|(Nb & Hb & ->)]]; try congruence;
    repeat match goal with H : In (_, _, _) sw_meanings |- _ => pose proof (K _ _ _ H) as (? & ?); revert H end; intros; try congruence; exfalso; eauto.
  - eapply Nb; eauto.
  - eapply Na; eauto.
Qed.
Example C78_meaning_ex : sw_says 0x69 0x82 (lit "Checking error: Security status not satisfied") /\ sw_says 0x63 0xC3 (lit "Warning: Counter is 3") /\
  sw_says 0x6A 0xFF (lit "Checking error: Unknown") /\ sw_says 0x67 0x01 (lit "Proprietary").
Proof.
  split; [left; eexists; split; [|reflexivity]; cbn; tauto|]. split; [right; left; reflexivity|].
  split; right; right; (split; [intros t I; cbn in I; repeat (destruct I as [I|I]; [discriminate I|]); exact I|split; reflexivity]).
Qed.
Print Assumptions C78_status_meaning. Print Assumptions C78_status_unique.
