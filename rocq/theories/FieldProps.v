(** Fields that are text are described with their text. *)
From Coq Require Import String.
From Verif Require Import Base BaseLemmas BerSpec TlvSpec StrModel StrSpec StrProofs StrProps FlagsModel FlagsSpec FlagsProofs FlagsData CapduSpec FlagsAuth InfoModel InfoSpec InfoProofs InfoTexts InfoProps FieldSpec.
Open Scope string_scope.
Open Scope Z_scope.
Open Scope list_scope.
Notation length := List.length.

Definition format_of (s : charset) : format := match s with Alphanumeric => FormatAN | _ => FormatANS end.
Definition max_of (m : option nat) : nat := match m with Some m => m | None => 0%nat end.
Lemma text_case e tag s m : In (tag, s, m) text_fields -> ~ In tag [0x9F66; 0x9F6D; 0x9F6E] /\
  (s = AlphanumericSpace <-> tag = 0x50) /\ (s = AnyChar <-> tag = 0x9F12) /\ (m = Some 0%nat -> False) /\
  exists name k, case_of e tag = Some (name, k, Value (format_of s) (max_of m)).
Proof.
  intros I. unfold text_fields in I. cbn [In] in I.
  repeat (destruct I as [E|I]; [injection E as <- <- <-; split; [cbn [In]; intuition lia|]; split; [split; intros; (reflexivity || discriminate)|]; split; [split; intros; (reflexivity || discriminate)|];
    split; [discriminate|eexists _, _; reflexivity]|]). destruct I.
Qed.
Lemma get_text (e : env) tag s m v str : In (tag, s, m) text_fields -> v <> [] -> (length v < length str)%nat ->
  (Forall (allowed s) v -> exists new, get_string (format_of s) tag v str = Ret (0, new) /\ text_in str new v) /\
  (~ Forall (allowed s) v -> exists r new, r <> 0 /\ get_string (format_of s) tag v str = Ret (r, new) /\ hd 1 new = 0).
Proof.
  intros I NE L. destruct (text_case e tag s m I) as (_ & T50 & T12 & _). pose proof (text_formats v str) as (_ & An & Sp & Cc). cbv zeta in *.
  assert (Err : forall new, length new = length str -> exists new', (if negb (1 =? 0) then (let* s' := wr new 0 0 in Ret (1, s')) else Ret (0, new)) = Ret (1, new') /\ hd 1 new' = 0).
  { intros new Ln. destruct new as [|c t]; [cbn in Ln; destruct str; [cbn in L; lia|discriminate]|]. cbn [negb Z.eqb]. rewrite wr_first. cbn [bind]. eexists. split; reflexivity. }
  destruct s; unfold get_string, format_of.
  - destruct An as (_ & _ & A & B). split.
    + intros F. destruct (A NE L F) as (new & -> & T). cbn [bind Z.eqb negb]. eauto.
    + intros F. destruct (B NE L F) as (new & -> & Ln). cbn [bind]. destruct (Err new Ln) as (n' & -> & H). exists 1, n'. split; [discriminate|auto].
  - replace tag with 0x50 by (symmetry; apply T50; reflexivity). cbn [Z.eqb Pos.eqb]. destruct Sp as (_ & _ & A & B). split.
    + intros F. destruct (A NE L F) as (new & -> & T). cbn [bind Z.eqb negb]. eauto.
    + intros F. destruct (B NE L F) as (new & -> & Ln). cbn [bind]. destruct (Err new Ln) as (n' & -> & H). exists 1, n'. split; [discriminate|auto].
  - destruct (Z.eqb_spec tag 0x50) as [E|_]; [apply T50 in E; discriminate|]. destruct (Z.eqb_spec tag 0x9F12) as [E|_]; [apply T12 in E; discriminate|]. destruct Cc as (_ & _ & A & B). split.
    + intros F. destruct (A NE L F) as (new & -> & T). cbn [bind Z.eqb negb]. eauto.
    + intros F. destruct (B NE L F) as (new & -> & Ln). cbn [bind]. destruct (Err new Ln) as (n' & -> & H). exists 1, n'. split; [discriminate|auto].
  - replace tag with 0x9F12 by (symmetry; apply T12; reflexivity). cbn [Z.eqb Pos.eqb]. split.
    + intros _. rewrite put_Ret by lia. cbn [bind firstn app Nat.add]. rewrite wr_Ret by (rewrite app_length, skipn_length; lia). cbn [bind Z.eqb negb]. eexists. split; [reflexivity|].
      split; [exact L|]. destruct (skipn (length v) str) as [|x l] eqn:E.
      * exfalso. pose proof (skipn_length (length v) str) as Q. rewrite E in Q. cbn in Q. lia.
      * replace (skipn (S (length v)) str) with l; [apply upd_app; reflexivity|]. clear -E. revert str E. induction (length v) as [|n IH]; intros str E; [cbn in E; subst; reflexivity|]. destruct str as [|y str]; [discriminate|]. cbn [skipn] in *. apply IH, E.
    + intros F. exfalso. apply F. clear. induction v; constructor; [exact I|assumption].
Qed.

(** C148: text fields. *)
Theorem C148_text_fields : forall e tag s max v str, In (tag, s, max) text_fields -> v <> [] -> (length v < length str)%nat ->
  match max with Some m => (m < length str)%nat | None => True end ->
  (Forall (allowed s) v -> at_most (length v) max ->
     exists name k new, tlv_get_info e tag (Octets v) str = Ret (0, Some name, k, new) /\ text_in (emptied str) new v) /\
  (~ (Forall (allowed s) v /\ at_most (length v) max) ->
     exists r name k new, r <> 0 /\ tlv_get_info e tag (Octets v) str = Ret (r, Some name, k, new) /\ cstring new = Some []).
Proof.
  intros e tag s max v str I NE L Lm. destruct str as [|c t]; [cbn in L; lia|]. cbn [emptied].
  destruct (text_case e tag s max I) as (NT & _ & _ & M0 & name & k & C). rewrite (info_case e tag name k _ v c t NT C). cbn [run_action value_string].
  assert (L' : (length v < length (0 :: t)%Z)%nat) by exact L. destruct (get_text e tag s max v (0 :: t) I NE L') as [A B].
  assert (G : forall P Q : Prop, (P -> Q) -> (~ P -> Q) -> (P \/ ~ P) -> Q) by tauto.
  assert (T : at_most (length v) max -> tlv_value_get_string (format_of s) (max_of max) tag v (0 :: t) = get_string (format_of s) tag v (0 :: t)).
  { intros Am. unfold tlv_value_get_string. change (length (0 :: t)%Z =? 0)%nat with false. cbn match. destruct max as [m|]; cbn [max_of at_most] in *; [|reflexivity].
    destruct (Nat.eqb_spec m 0) as [->|]; [exfalso; apply M0; reflexivity|]. cbn [negb andb].
    destruct s; cbn [format_of]; (destruct (Nat.ltb_spec m (length v)); [lia|]); cbn [length] in *; (destruct (Nat.ltb_spec (S (length t)) (m + 1)); [lia|]); reflexivity. }
  assert (D : at_most (length v) max \/ ~ at_most (length v) max) by (destruct max as [m|]; cbn [at_most]; [lia|tauto]).
  split.
  - intros F Am. rewrite (T Am). destruct (A F) as (new & -> & Tx). cbn [bind]. exists name, k, new. auto.
  - intros N. destruct D as [Am|Am].
    + rewrite (T Am). destruct B as (r & new & R & -> & H); [tauto|]. cbn [bind]. exists r, name, k, new. split; [exact R|]. split; [reflexivity|]. destruct new as [|x new]; [discriminate|]. cbn in H. subst x. reflexivity.
    + destruct max as [m|]; cbn [at_most max_of] in *; [|tauto]. exists (-2), name, k, (0 :: t). split; [discriminate|]. split; [|reflexivity].
      unfold tlv_value_get_string. change (length (0 :: t)%Z =? 0)%nat with false. cbn match. destruct (Nat.eqb_spec m 0) as [->|]; [exfalso; apply M0; reflexivity|]. cbn [negb andb].
      destruct s; cbn [format_of]; (destruct (Nat.ltb_spec m (length v)); [|lia]); reflexivity.
Qed.
Print Assumptions C148_text_fields.
(** The account number: its digits without the filler. *)
Theorem C148_filled_fields : forall e tag max v str, In (tag, max) filled_fields -> bytes v -> v <> [] -> (2 * length v < length str)%nat ->
  match max with Some m => (m < length str)%nat | None => True end ->
  (digits (before_pad (nibbles v)) -> match max with Some m => (2 * length v <= m + 1)%nat | None => True end ->
     exists name k new, tlv_get_info e tag (Octets v) str = Ret (0, Some name, k, new) /\ text_in (emptied str) new (chars (before_pad (nibbles v)))) /\
  (~ digits (before_pad (nibbles v)) \/ match max with Some m => (m + 1 < 2 * length v)%nat | None => False end ->
     exists r name k new, r <> 0 /\ tlv_get_info e tag (Octets v) str = Ret (r, Some name, k, new) /\ cstring new = Some []).
Proof.
  intros e tag max v str I B NE L Lm. destruct str as [|c t]; [cbn in L; lia|]. cbn [emptied].
  assert (C : ~ In tag [0x9F66; 0x9F6D; 0x9F6E] /\ (max = Some 0%nat -> False) /\ exists name k, case_of e tag = Some (name, k, Value FormatCN (max_of max))).
  { unfold filled_fields in I. cbn [In] in I.
    repeat (destruct I as [E|I]; [injection E as <- <-; split; [cbn [In]; intuition lia|]; split; [discriminate|eexists _, _; reflexivity]|]). destruct I. }
  destruct C as (NT & M0 & name & k & C). rewrite (info_case e tag name k _ v c t NT C). cbn [run_action value_string].
  assert (T : match max with Some m => (2 * length v <= m + 1)%nat | None => True end -> tlv_value_get_string FormatCN (max_of max) tag v (0 :: t) = get_string FormatCN tag v (0 :: t)).
  { intros Am. unfold tlv_value_get_string. change (length (0 :: t)%Z =? 0)%nat with false. cbn match. destruct max as [m|]; cbn [max_of] in *; [|reflexivity].
    destruct (Nat.eqb_spec m 0) as [->|]; [exfalso; apply M0; reflexivity|]. cbn [negb andb].
    assert (H : (length v <= (m + 1) / 2)%nat) by (apply Nat.div_le_lower_bound; lia). destruct (Nat.ltb_spec ((m + 1) / 2) (length v)); [lia|]. cbn [length] in *. destruct (Nat.ltb_spec (S (length t)) (m + 1)); [lia|]. reflexivity. }
  destruct (C52_cn_format_all v (0 :: t) B) as (_ & _ & X & Y). split.
  - intros D Am. rewrite (T Am). unfold get_string. destruct (X NE L D) as (new & -> & Tx). cbn [bind Z.eqb negb]. exists name, k, new. auto.
  - intros F. assert (G : (match max with Some m => (2 * length v <= m + 1)%nat | None => True end) \/ match max with Some m => (m + 1 < 2 * length v)%nat | None => False end) by (destruct max; [lia|left; exact Logic.I]).
    destruct G as [G|G].
    + destruct F as [F|F]; [|destruct max; [lia|destruct F]]. rewrite (T G). unfold get_string. destruct (Y NE L F) as (new & -> & Ln). cbn [bind Z.eqb negb]. destruct new as [|x new]; [discriminate Ln|]. exists 1, name, k, (0 :: new). split; [discriminate|split; reflexivity].
    + destruct max as [m|]; [|destruct G]. unfold tlv_value_get_string. change (length (0 :: t)%Z =? 0)%nat with false. cbn match. cbn [max_of].
      destruct (Nat.eqb_spec m 0) as [->|]; [exfalso; apply M0; reflexivity|]. cbn [negb andb].
      assert (H : ((m + 1) / 2 < length v)%nat) by (apply Nat.div_lt_upper_bound; lia).
      destruct (Nat.ltb_spec ((m + 1) / 2) (length v)); [|lia]. cbn [bind]. exists (-3), name, k, (0 :: t). split; [discriminate|split; reflexivity].
Qed.
Print Assumptions C148_filled_fields.
Example C148_ex : text_of (tlv_get_info ex_env 0x5F20 (Octets (lit "DOE/JANE")) (repeat 9 40)) = Ret (0, Some "Cardholder Name", IsANS, Some (lit "DOE/JANE")) /\
  text_of (tlv_get_info ex_env 0x5A (Octets [0x47; 0x61; 0x73; 0x90; 0x01; 0x01; 0x01; 0x19; 0x55; 0x5F]) (repeat 9 40)) =
    Ret (0, Some "Application Primary Account Number (PAN)", IsCN, Some (lit "4761739001010119555")) /\
  text_of (tlv_get_info ex_env 0x50 (Octets (lit "VISA-1")) (repeat 9 40)) = Ret (1, Some "Application Label", IsANS, Some []).
Proof. vm_compute. auto. Qed.

(** Further response codes. *)
Lemma other_ok : forallb (fun e => oeqb (key_lookup (lit (fst e)) arc_map) (Some (lit (snd e))) &&
  match lit (fst e) with [x; y] => alnum x && alnum y | _ => false end)%bool (other_codes ++ newer_codes) = true.
Proof. vm_compute. reflexivity. Qed.
Theorem C101_other_codes : forall k d str, In (k, d) (other_codes ++ newer_codes) -> (10 <= length str)%nat ->
  exists new, arc_string (lit k) str = Ret (0, new) /\ shown str new (lit k ++ lit " - " ++ lit d).
Proof.
  intros k d str I L. pose proof other_ok as F. rewrite forallb_forall in F. specialize (F _ I). cbn [fst snd] in F. apply andb_prop in F as [F G]. apply oeqb_eq in F.
  destruct (lit k) as [|x [|y [|]]]; try discriminate. apply andb_prop in G as [X Y].
  destruct (arc_shown x y str) as (new & E & Sh); [lia|assumption..|]. exists new. split; [exact E|]. rewrite F in Sh. destruct (Nat.ltb_spec (length str) 10); [lia|]. exact Sh.
Qed.
Print Assumptions C101_other_codes.
(** A code of none of the tables is shown alone. *)
Lemma listed_ok : forallb (fun e => existsb (fun c => FieldsModel.list_eqb (lit (fst c)) (lit (fst e))) (common_codes ++ other_codes ++ newer_codes)) arc_map = true.
Proof. vm_compute. reflexivity. Qed.
Lemma key_lookup_in k m d : key_lookup k m = Some d -> exists e, In e m /\ lit (fst e) = k.
Proof.
  induction m as [|[a b] m IH]; [discriminate|]. cbn [key_lookup]. destruct (FieldsModel.list_eqb (lit a) k) eqn:E.
  - intros _. exists (a, b). split; [left; reflexivity|]. apply FlagsData.list_eqb_spec. exact E.
  - intros H. destruct (IH H) as (e & I & L). exists e. split; [right; exact I|exact L].
Qed.
Theorem C101_unlisted_codes : forall x y str, (3 <= length str)%nat -> alnum x = true -> alnum y = true ->
  (forall k d, In (k, d) (common_codes ++ other_codes ++ newer_codes) -> lit k <> [x; y]) ->
  exists new, arc_string [x; y] str = Ret (0, new) /\ shown str new [x; y].
Proof.
  intros x y str L X Y N. destruct (arc_shown x y str L X Y) as (new & E & Sh). exists new. split; [exact E|].
  destruct (key_lookup [x; y] arc_map) as [d|] eqn:K; [|exact Sh]. exfalso. apply key_lookup_in in K. destruct K as (e & I & Le).
  pose proof listed_ok as F. rewrite forallb_forall in F. specialize (F _ I). apply existsb_exists in F. destruct F as ([k d'] & Ic & Ec).
  apply FlagsData.list_eqb_spec in Ec. apply (N k d' Ic). cbn [fst] in Ec. rewrite Ec. exact Le.
Qed.
Print Assumptions C101_unlisted_codes.
Example C101_codes_ex : arc_string (lit "1N") (repeat 7 33) = Ret (0, lit "1N - Stop payment order - Accoun" ++ [0]) /\
  arc_string (lit "Z3") (repeat 7 12) = Ret (0, lit "Z3" ++ 0 :: repeat 7 9).
Proof. vm_compute. auto. Qed.
