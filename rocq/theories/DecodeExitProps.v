(** C170: what emv-decode tells by its exit status and its streams.  Statements: properties.jsonl. *)
From Coq Require Import String.
From Verif Require Import Base BaseLemmas StrModel Iso8859Model ToolsModel PrintModel DecodeModel DecodeProps DecodeExitModel.
Open Scope string_scope.
Open Scope Z_scope.
Open Scope list_scope.
Notation length := List.length.

(** Either an answer on standard output, or a message that ends the line on standard error. *)
Definition one_stream (v : list Z * list Z) : Prop := snd v = [] \/ (fst v = [] /\ exists t, snd v = t ++ newline).
Definition ends_one (m : out (list Z * list Z)) : Prop := forall v, m = Ret v -> one_stream v.
Lemma ends_bind {A} (m : out A) k : (forall a, ends_one (k a)) -> ends_one (bind m k).
Proof. intros H v. destruct m as [a| |]; cbn [bind]; try discriminate. apply H. Qed.
Lemma ends_prints s : ends_one (prints s).
Proof. intros v E. unfold prints in E. assert (v = (s, [])) by congruence. subst. left. reflexivity. Qed.
Lemma ends_complains t : ends_one (complains t).
Proof. intros v E. unfold complains in E. assert (v = ([], lit t ++ newline)) by congruence. subst. right. split; [reflexivity|]. exists (lit t). reflexivity. Qed.
Lemma ends_error t : ends_one (Ret ([], t ++ newline)).
Proof. intros v E. assert (v = ([], t ++ newline)) by congruence. subst. right. split; [reflexivity|]. exists t. reflexivity. Qed.
Ltac ends := repeat first [apply ends_prints | apply ends_complains | apply ends_bind; intros
  | match goal with |- ends_one (match ?b with _ => _ end) => destruct b end].
Lemma ends_list ok w call f : ends_one (list_mode ok w call f).
Proof. unfold list_mode. ends. Qed.
Lemma ends_number arg look t : ends_one (by_number arg look t).
Proof. unfold by_number. ends. Qed.

(** Whatever the data, no answer is mixed with a message: for each decoding option either nothing is written to
    standard error, or nothing to standard output and one message to standard error. *)
Theorem C170_streams c short long beyond pad m data arg a b :
  decode c short long beyond pad m data arg = Ret (a, b) -> b = [] \/ (a = [] /\ exists t, b = t ++ newline).
Proof.
  intros E. assert (K : ends_one (decode c short long beyond pad m data arg)); [|exact (K _ E)]. clear E.
  destruct m; cbn [decode]; cbv zeta; try apply ends_list; try (ends; fail).
  - unfold country_mode. cbv zeta. ends; apply ends_number.
  - unfold currency_mode. ends; apply ends_number.
  - unfold language_mode. ends.
  - unfold iso8859_mode. destruct (negb (iso8859_is_supported page)).
    + rewrite !app_assoc. apply ends_error.
    + apply ends_bind. intros [r u]. apply ends_bind. intros ch. destruct (negb (r =? 0) && negb (ch =? 0)).
      * rewrite !app_assoc. apply ends_error.
      * ends.
Qed.

(** The data were decoded, or what was asked for was told. *)
Definition done (s : said) : Prop := match s with Streams _ b => b = [] | Told => True | _ => False end.
(** The status tells of success for every run that is done, and is not 0 if the command line is refused or there is
    none, or the lookups cannot be set up, in which case standard output is empty. *)
Theorem C170_status_partial c short long beyond junk stdin strings opts args st s :
  main_decode c short long beyond junk stdin strings opts args = Ret (st, s) ->
  (done s -> st = 0) /\
  (st = 0 \/ st = 1 \/ st = 2 \/ st = 64) /\
  (st = 1 <-> opts = [] /\ args = []) /\
  (st = 64 <-> exists t, s = Complained t) /\
  (st = 2 -> strings < 0 /\ exists t, s = Streams [] (t ++ newline)) /\
  (st = 0 -> forall a b, s = Streams a b -> 0 <= strings /\ exists b', (b' = [] \/ a = []) /\ b = (if 0 <? strings then warning else []) ++ b').
Proof.
  intros E.
  assert (N0 : (opts = [] /\ args = []) \/ ~ (opts = [] /\ args = [])).
  { destruct opts, args; [left; auto|right; intros (_ & X); discriminate|right; intros (X & _); discriminate|right; intros (X & _); discriminate]. }
  unfold main_decode in E. destruct N0 as [(-> & ->)|N0].
  { injection E as <- <-. split; [intros []|]. split; [auto|]. split; [tauto|].
    split; [split; [discriminate|intros (t & X); discriminate]|]. split; discriminate. }
  assert (E' : (let* x := parse_dopts junk (mkState None [] [] false stdin) opts in
    match x with
    | None => Ret (0, Told)
    | Some (Usage t) => Ret (64, Complained t)
    | Some (Next s) =>
      let* y := parse_arguments junk s (match args with [] => [ANone] | _ => map AInput args end) in
      match y with
      | Usage t => Ret (64, Complained t)
      | Next s =>
        if strings <? 0 then Ret (2, Streams [] (lit "Failed to initialise EMV strings" ++ newline))
        else
        match s_mode s with
        | None => Ret (0, Helped)
        | Some m =>
          let* (a, b) := decode c short long beyond (s_pad s) m (s_data s) (s_arg s) in Ret (0, Streams a ((if 0 <? strings then warning else []) ++ b))
        end
      end
    end) = Ret (st, s)) by (destruct opts, args; [exfalso; auto| | |]; exact E).
  clear E. rename E' into E.
  assert (R64 : forall t, Ret (64, Complained t) = Ret (st, s) -> (done s -> st = 0) /\
    (st = 0 \/ st = 1 \/ st = 2 \/ st = 64) /\ (st = 1 <-> opts = [] /\ args = []) /\
    (st = 64 <-> exists t, s = Complained t) /\
    (st = 2 -> strings < 0 /\ exists t, s = Streams [] (t ++ newline)) /\
    (st = 0 -> forall a b, s = Streams a b -> 0 <= strings /\ exists b', (b' = [] \/ a = []) /\ b = (if 0 <? strings then warning else []) ++ b')).
  { intros t E1. injection E1 as <- <-. split; [intros []|]. split; [auto|]. split; [split; [discriminate|tauto]|].
    split; [split; [eauto|reflexivity]|]. split; discriminate. }
  destruct (parse_dopts junk _ opts) as [[[s1|t]|]| |]; cbn [bind] in E; try discriminate; [|exact (R64 _ E)|].
  2:{ injection E as <- <-. split; [reflexivity|]. split; [auto|]. split; [split; [discriminate|tauto]|].
      split; [split; [discriminate|intros (t & X); discriminate]|]. split; [discriminate|]. intros _ a b X. discriminate. }
  destruct (parse_arguments junk s1 _) as [[s2|t]| |]; cbn [bind] in E; try discriminate; [|exact (R64 _ E)].
  destruct (Z.ltb_spec strings 0) as [Hs|Hs].
  { assert (st = 2 /\ s = Streams [] (lit "Failed to initialise EMV strings" ++ newline)) as (-> & ->) by (split; congruence).
    split; [intros X; exfalso; cbn [done] in X; apply app_eq_nil in X as (_ & X); discriminate|]. split; [auto|].
    split; [split; [discriminate|tauto]|]. split; [split; [discriminate|intros (t & X); discriminate]|].
    split; [intros _; split; [exact Hs|]; eauto|discriminate]. }
  destruct (s_mode s2) as [m|].
  2:{ injection E as <- <-. split; [intros []|]. split; [auto|]. split; [split; [discriminate|tauto]|].
      split; [split; [discriminate|intros (t & X); discriminate]|]. split; [discriminate|]. intros _ a b X. discriminate. }
  destruct (decode c short long beyond (s_pad s2) m (s_data s2) (s_arg s2)) as [[a b]| |] eqn:Ed; cbn [bind] in E; try discriminate.
  pose proof (C170_streams _ _ _ _ _ _ _ _ _ _ Ed) as K.
  assert (st = 0 /\ s = Streams a ((if 0 <? strings then warning else []) ++ b)) as (-> & ->) by (split; congruence).
  split; [reflexivity|]. split; [auto|]. split; [split; [discriminate|tauto]|].
  split; [split; [discriminate|intros (t & X); discriminate]|]. split; [discriminate|].
  intros _ a1 b1 X. assert (a1 = a /\ b1 = (if 0 <? strings then warning else []) ++ b) as (-> & ->) by (split; congruence).
  split; [exact Hs|]. exists b. split; [|reflexivity]. destruct K as [->|(-> & _)]; auto.
Qed.

(** But the status is 0 as well if the data cannot be decoded: TVR of one octet, an unknown country, an ATR that is
    not one; and if no decoding option is given. *)
Definition dm := main_decode ex_codes (repeat 7 1024) (repeat 7 2048) [] (repeat 7) None 0.
Theorem C170_status_refuted :
  (exists opts args s, dm opts args = Ret (0, s) /\ ~ done s) /\
  (exists e1 e2 e3, e1 <> [] /\ e2 <> [] /\ e3 <> [] /\
   dm [Plain (Decoding MTvr)] [lit "00"] = Ret (0, Streams [] e1) /\
   dm [Plain (Decoding MCountry)] [lit "XX"] = Ret (0, Streams [] e2) /\
   dm [Plain (Decoding MAtr)] [lit "0000"] = Ret (0, Streams [] e3)) /\
  dm [] [lit "9000"] = Ret (0, Helped).
Proof.
  split; [exists [], [lit "9000"], Helped; split; [vm_compute; reflexivity|intros []]|]. split; [|vm_compute; reflexivity].
  do 3 eexists.
  assert (G : forall (e1 e2 e3 : list Z) (P1 P2 P3 : Prop), P1 /\ P2 /\ P3 -> e1 <> [] /\ e2 <> [] /\ e3 <> [] ->
    e1 <> [] /\ e2 <> [] /\ e3 <> [] /\ P1 /\ P2 /\ P3) by tauto.
  apply G; [split; [vm_compute; reflexivity|]; split; vm_compute; reflexivity|].
  split; [discriminate|]. split; discriminate.
Qed.

Example C170_ex : exists a,
  dm [Plain (Decoding MSw1Sw2)] [lit "9000"] = Ret (0, Streams a []) /\ a <> [] /\
  main_decode ex_codes (repeat 7 1024) (repeat 7 2048) [] (repeat 7) None 1 [Plain (Decoding MSw1Sw2)] [lit "9000"] = Ret (0, Streams a warning) /\
  main_decode ex_codes (repeat 7 1024) (repeat 7 2048) [] (repeat 7) None (-1) [Plain (Decoding MSw1Sw2)] [lit "9000"] =
    Ret (2, Streams [] (lit "Failed to initialise EMV strings" ++ newline)) /\
  dm [] [] = Ret (1, Helped) /\ dm [About; Plain (Decoding MTvr)] [] = Ret (0, Told) /\
  dm [Plain (Decoding MTvr); Plain (Decoding MAtr)] [] = Ret (64, Complained "Only one decoding OPTION may be specified") /\
  dm [Plain (Decoding MTvr)] [lit "0"] = Ret (64, Complained "INPUT must consist of at least 1 byte (thus 2 hex digits)") /\
  dm [Plain (Decoding MTvr)] [] = Ret (64, Complained "INPUT is missing").
Proof.
  eexists. split; [vm_compute; reflexivity|]. split; [discriminate|]. repeat (split; [vm_compute; reflexivity|]). vm_compute; reflexivity.
Qed.

Print Assumptions C170_streams.
Print Assumptions C170_status_partial.
Print Assumptions C170_status_refuted.
