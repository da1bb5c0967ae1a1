(** Proofs for emv-tool: options and transaction data. *)
From Coq Require Import String.
From Verif Require Import Base BaseLemmas BerSpec TlvListModel TlvModel TlvSpec TlvProps StrModel StrSpec CapduModel FlagsSpec FlagsModel ToolsModel ToolsSpec PrintModel DecodeModel AppModel TermModel TermSpec.
Open Scope string_scope.
Open Scope Z_scope.
Open Scope list_scope.
Notation length := List.length.

(** ** strtoul *)
Definition value_in (base : Z) (l : list Z) (v : Z) : Z := fold_left (fun a c => a * base + match digit_in base c with Some d => d | None => 0 end) l v.
Lemma number_from_split base s : forall v, exists t r, s = t ++ r /\ Forall (fun c => digit_in base c <> None) t /\
  match r with [] => True | c :: _ => digit_in base c = None end /\ number_from base s v = (value_in base t v, r).
Proof.
  induction s as [|c s IH]; intros v; [exists [], []; repeat split; constructor|]. cbn [number_from]. destruct (digit_in base c) as [d|] eqn:D.
  - destruct (IH (v * base + d)) as (t & r & -> & F & R & E). exists (c :: t), r. split; [reflexivity|]. split; [constructor; congruence|]. split; [exact R|].
    rewrite E. unfold value_in. cbn [fold_left]. rewrite D. reflexivity.
  - exists [], (c :: s). split; [reflexivity|]. split; [constructor|]. split; [exact D|reflexivity].
Qed.
Lemma skip_space_split s : exists sp, s = sp ++ skip_space s /\ Forall space sp.
Proof.
  induction s as [|c s (sp & E & F)]; [exists []; split; [reflexivity|constructor]|]. cbn [skip_space]. destruct (is_space c) eqn:S.
  - exists (c :: sp). split; [cbn [app]; congruence|]. constructor; [|exact F]. unfold is_space in S. unfold space.
    assert (Q : c = 32 \/ c = 9 \/ c = 10 \/ c = 11 \/ c = 12 \/ c = 13) by lia. cbn [In]. intuition congruence.
  - exists []. split; [reflexivity|constructor].
Qed.
Lemma sign_split s : exists sg, s = sg ++ snd (sign s) /\ (if fst (sign s) then sg = [0x2D] else sg = [] \/ sg = [0x2B]).
Proof.
  destruct s as [|c s]; [exists []; split; [reflexivity|left; reflexivity]|]. cbn [sign]. destruct (Z.eqb_spec c 0x2D) as [->|]; [exists [0x2D]; split; reflexivity|].
  destruct (Z.eqb_spec c 0x2B) as [->|]; [exists [0x2B]; split; [reflexivity|right; reflexivity]|exists []; split; [reflexivity|left; reflexivity]].
Qed.
Lemma hex_prefix_split base s : exists px, s = px ++ hex_prefix base s /\ (px = [] \/ base = 16 /\ length px = 2%nat).
Proof.
  assert (K : exists px, s = px ++ s /\ (px = [] \/ base = 16 /\ length px = 2%nat)) by (exists []; auto).
  unfold hex_prefix. destruct s as [|a [|x [|d t]]]; try exact K; (destruct a as [|p|p]; try exact K; repeat (destruct p as [p|p|]; try exact K)).
  destruct (Z.eqb_spec base 16) as [->|]; [|exact K]. cbn [andb]. destruct (_ || _); [|exact K]. destruct (digit_in 16 d); [|exact K].
  exists [0x30; x]. split; [reflexivity|right; split; reflexivity].
Qed.
Lemma strtoul_shape base s v : s <> [] -> strtoul base s = (v, []) -> exists minus pre px t, s = pre ++ px ++ t /\ signed minus pre /\
  (px = [] \/ base = 16 /\ length px = 2%nat) /\ t <> [] /\ Forall (fun c => digit_in base c <> None) t /\
  v = if ULONG_MAX <? value_in base t 0 then ULONG_MAX else if minus then u64 (- value_in base t 0) else value_in base t 0.
Proof.
  intros NE E. unfold strtoul in E. destruct (skip_space_split s) as (sp & Es & Fs). destruct (sign_split (skip_space s)) as (sg & Eg & Fg).
  destruct (sign (skip_space s)) as [minus u]. cbn [fst snd] in *. destruct (hex_prefix_split base u) as (px & Ep & Fp).
  set (t := hex_prefix base u) in *. clearbody t. destruct t as [|c t']; [injection E as _ E; congruence|].
  destruct (digit_in base c) eqn:D; [|injection E as _ E; congruence].
  destruct (number_from_split base (c :: t') 0) as (t & r & Et & Ft & Rt & En). rewrite En in E. injection E as <- ->. rewrite app_nil_r in Et.
  exists minus, (sp ++ sg), px, t. split; [rewrite <- app_assoc; congruence|]. split.
  { exists sp. split; [exact Fs|]. destruct minus; [congruence|]. destruct Fg as [->| ->]; [left; apply app_nil_r|right; reflexivity]. }
  split; [exact Fp|]. split; [congruence|]. split; [exact Ft|reflexivity].
Qed.

Lemma digit_10 d : 0 <= d <= 9 -> digit_in 10 (48 + d) = Some d.
Proof. intros D. unfold digit_in. destruct (Z.leb_spec 48 (48 + d)), (Z.leb_spec (48 + d) 57); try lia. cbn [andb]. replace (48 + d - 48) with d by lia. destruct (Z.ltb_spec d 10); [reflexivity|lia]. Qed.
Lemma digit_10_inv c : digit_in 10 c <> None -> exists d, 0 <= d <= 9 /\ c = 48 + d.
Proof.
  unfold digit_in. destruct (Z.leb_spec 48 c), (Z.leb_spec c 57); cbn [andb]; try (exists (c - 48); split; lia);
    destruct (Z.leb_spec 65 c), (Z.leb_spec c 90); cbn [andb]; try (destruct (Z.ltb_spec (c - 55) 10); [lia|congruence]);
    destruct (Z.leb_spec 97 c), (Z.leb_spec c 122); cbn [andb]; try (destruct (Z.ltb_spec (c - 87) 10); [lia|congruence]); cbn; congruence.
Qed.
Lemma digit_16_inv c : digit_in 16 c <> None -> exists d, hex_char c d /\ digit_in 16 c = Some d.
Proof.
  unfold digit_in. intros N.
  assert (Q : (48 <= c <= 57 \/ 65 <= c <= 70 \/ 97 <= c <= 102)).
  { destruct (Z.leb_spec 48 c), (Z.leb_spec c 57); cbn [andb] in N; try lia;
      destruct (Z.leb_spec 65 c), (Z.leb_spec c 90); cbn [andb] in N; try (destruct (Z.ltb_spec (c - 55) 16); [lia|congruence]);
      destruct (Z.leb_spec 97 c), (Z.leb_spec c 122); cbn [andb] in N; try (destruct (Z.ltb_spec (c - 87) 16); [lia|congruence]); cbn in N; congruence. }
  destruct Q as [Q|[Q|Q]].
  - exists (c - 48). split; [replace c with (48 + (c - 48)) at 1 by lia; constructor; lia|].
    destruct (Z.leb_spec 48 c), (Z.leb_spec c 57); try lia. cbn [andb]. destruct (Z.ltb_spec (c - 48) 16); [reflexivity|lia].
  - exists (c - 55). split; [replace c with (65 + (c - 55 - 10)) at 1 by lia; constructor; lia|].
    destruct (Z.leb_spec 48 c), (Z.leb_spec c 57), (Z.leb_spec 65 c), (Z.leb_spec c 90); try lia. cbn [andb]. destruct (Z.ltb_spec (c - 55) 16); [reflexivity|lia].
  - exists (c - 87). split; [replace c with (97 + (c - 87 - 10)) at 1 by lia; constructor; lia|].
    destruct (Z.leb_spec 48 c), (Z.leb_spec c 57), (Z.leb_spec 65 c), (Z.leb_spec c 90), (Z.leb_spec 97 c), (Z.leb_spec c 122); try lia. cbn [andb].
    destruct (Z.ltb_spec (c - 87) 16); [reflexivity|lia].
Qed.
Lemma value_chars ds : digits ds -> forall v, value_in 10 (chars ds) v = fold_left (fun a d => a * 10 + d) ds v.
Proof.
  intros D. induction D as [|d ds Hd _ IH]; intros v; [reflexivity|]. unfold value_in. cbn [chars map fold_left]. rewrite (digit_10 d Hd). apply IH.
Qed.
Lemma chars_of t : Forall (fun c => digit_in 10 c <> None) t -> exists ds, digits ds /\ t = chars ds.
Proof.
  induction 1 as [|c t Hc _ (ds & D & ->)]; [exists []; split; [constructor|reflexivity]|]. destruct (digit_10_inv c Hc) as (d & B & ->).
  exists (d :: ds). split; [constructor; assumption|reflexivity].
Qed.
Lemma number_from_chars ds : digits ds -> forall v, number_from 10 (chars ds) v = (fold_left (fun a d => a * 10 + d) ds v, []).
Proof. intros D. induction D as [|d ds Hd _ IH]; intros v; [reflexivity|]. cbn [chars map number_from fold_left]. rewrite (digit_10 d Hd). apply IH. Qed.
Lemma hex_prefix_10 s : hex_prefix 10 s = s.
Proof. unfold hex_prefix. destruct s as [|a [|x [|d t]]]; try reflexivity; (destruct a as [|p|p]; try reflexivity; repeat (destruct p as [p|p|]; try reflexivity)). Qed.
Lemma plain_start ds : digits ds -> sign (skip_space (chars ds)) = (false, chars ds).
Proof.
  intros D. destruct D as [|d ds Hd _]; [reflexivity|]. cbn [chars map skip_space]. unfold is_space.
  destruct (Z.eqb_spec (48 + d) 0x20); [lia|]. destruct (Z.leb_spec 9 (48 + d)), (Z.leb_spec (48 + d) 13); try lia; cbn [orb andb sign].
  destruct (Z.eqb_spec (48 + d) 0x2D); [lia|]. destruct (Z.eqb_spec (48 + d) 0x2B); [lia|reflexivity].
Qed.
Lemma strtoul_chars ds : digits ds -> ds <> [] -> strtoul 10 (chars ds) = (if ULONG_MAX <? number ds then ULONG_MAX else number ds, []).
Proof.
  intros D NE. unfold strtoul. rewrite (plain_start ds D), hex_prefix_10. destruct ds as [|d ds]; [congruence|].
  pose proof (number_from_chars (d :: ds) D 0) as E. cbn [chars map] in *. inversion D as [|? ? Hd _]; subst. rewrite (digit_10 d Hd), E. reflexivity.
Qed.

(** ** Amounts *)
Lemma amount_digits name set ds : digits ds -> ds <> [] ->
  parse_amount name (chars ds) set = if number ds <=? 0xFFFFFFFF then Accepted (set (number ds)) else Rejected (name ++ lit " argument must fit in a 32-bit field").
Proof.
  intros D NE. unfold parse_amount. rewrite (strtoul_chars ds D NE). destruct ds as [|d ds]; [congruence|]. cbn [chars map].
  assert (N : 0 <= number (d :: ds)).
  { clear NE. unfold number. assert (G : forall l v, digits l -> 0 <= v -> 0 <= fold_left (fun a d => a * 10 + d) l v).
    { induction l as [|e l IH]; intros v Dl V; [exact V|]. inversion Dl; subst. cbn [fold_left]. apply IH; [assumption|lia]. } apply G; [exact D|lia]. }
  set (n := number (d :: ds)) in *. clearbody n. unfold ULONG_MAX. destruct (Z.ltb_spec 18446744073709551615 n).
  - destruct (Z.leb_spec n 0xFFFFFFFF); [lia|reflexivity].
  - destruct (Z.leb_spec n 0xFFFFFFFF); destruct (Z.ltb_spec 0xFFFFFFFF n); try lia; [|reflexivity]. rewrite u32_id by (unfold u32 in *; lia). reflexivity.
Qed.
Lemma amount_accepted name arg set s' : parse_amount name arg set = Accepted s' ->
  exists minus pre ds, arg = pre ++ chars ds /\ signed minus pre /\ digits ds /\ ds <> [] /\
    exists v, 0 <= v <= 0xFFFFFFFF /\ s' = set v /\ v = (if minus then - number ds else number ds) mod 18446744073709551616 /\ number ds < 18446744073709551616.
Proof.
  unfold parse_amount. destruct arg as [|a arg]; [discriminate|]. destruct (strtoul 10 (a :: arg)) as [v r] eqn:E. destruct r; [|discriminate].
  destruct (Z.ltb_spec 0xFFFFFFFF v); [discriminate|]. intros Q. injection Q as <-.
  destruct (strtoul_shape 10 (a :: arg) v ltac:(discriminate) E) as (minus & pre & px & t & Ea & Sg & Px & NE & F & V).
  destruct Px as [->|[Px _]]; [|discriminate Px]. cbn [app] in Ea. destruct (chars_of t F) as (ds & D & ->). rewrite (value_chars ds D) in V. fold (number ds) in V.
  assert (N : 0 <= number ds).
  { unfold number. assert (G : forall l w, digits l -> 0 <= w -> 0 <= fold_left (fun a d => a * 10 + d) l w).
    { induction l as [|e l IH]; intros w Dl W; [exact W|]. inversion Dl; subst. cbn [fold_left]. apply IH; [assumption|lia]. } apply G; [exact D|lia]. }
  exists minus, pre, ds. split; [exact Ea|]. split; [exact Sg|]. split; [exact D|]. split; [intros ->; apply NE; reflexivity|].
  set (n := number ds) in *. clearbody n. unfold ULONG_MAX in V. destruct (Z.ltb_spec 18446744073709551615 n); [lia|].
  exists v. assert (V0 : 0 <= v) by (subst v; destruct minus; [unfold u64; apply Z.mod_pos_bound; lia|lia]). split; [lia|]. split; [rewrite u32_id by lia; reflexivity|].
  split; [|lia]. subst v. destruct minus; [reflexivity|]. rewrite Z.mod_small by lia. reflexivity.
Qed.

(** ** Transaction type *)
Definition with_type (s : settings) (v : Z) : settings := mkSettings v (o_amount s) (o_other s) (o_verbose s) (o_sources s) (o_level s).
Lemma type_digits s d e : 0 <= d <= 9 -> 0 <= e <= 9 -> parse_type s (chars [d; e]) = Accepted (with_type s (d * 16 + e)).
Proof.
  intros D E. assert (C1 : d = 0 \/ d = 1 \/ d = 2 \/ d = 3 \/ d = 4 \/ d = 5 \/ d = 6 \/ d = 7 \/ d = 8 \/ d = 9) by lia.
  assert (C2 : e = 0 \/ e = 1 \/ e = 2 \/ e = 3 \/ e = 4 \/ e = 5 \/ e = 6 \/ e = 7 \/ e = 8 \/ e = 9) by lia.
  clear D E. repeat (destruct C1 as [->|C1]; [repeat (destruct C2 as [->|C2]; [vm_compute; reflexivity|]); subst e; vm_compute; reflexivity|]).
  subst d. repeat (destruct C2 as [->|C2]; [vm_compute; reflexivity|]); subst e; vm_compute; reflexivity.
Qed.
Lemma type_accepted s arg s' : parse_type s arg = Accepted s' -> exists v, s' = with_type s v /\
  ((exists a b d e, arg = [a; b] /\ hex_char a d /\ hex_char b e /\ v = d * 16 + e) \/
   (exists a b e, arg = [a; b] /\ (space a \/ a = 0x2B) /\ hex_char b e /\ v = e) \/
   (exists b e, arg = [0x2D; b] /\ hex_char b e /\ v = (256 - e) mod 256)).
Proof.
  unfold parse_type. destruct (Z.eqb_spec (Zlen arg) 2) as [L|L]; [|discriminate]. cbn [negb]. destruct (strtoul 16 arg) as [v r] eqn:E.
  destruct arg as [|a arg]; [discriminate|]. destruct r; [|discriminate]. intros Q. injection Q as <-. exists (u8 v). split; [reflexivity|].
  destruct (strtoul_shape 16 (a :: arg) v ltac:(discriminate) E) as (minus & pre & px & t & Ea & (sp & Fsp & Sg) & Px & NE & F & V).
  assert (Ln : length (a :: arg) = 2%nat) by (unfold Zlen in L; lia). rewrite Ea, !app_length in Ln.
  destruct t as [|x t]; [congruence|]. cbn [length] in Ln. destruct Px as [->|[_ Px]]; [|lia]. cbn [app length] in *.
  inversion F as [|? ? Fx Ft]; subst x0 l. destruct (digit_16_inv x Fx) as (d & Hx & Dx).
  assert (Bd : 0 <= d <= 15) by (inversion Hx; lia).
  destruct t as [|y t].
  - unfold value_in in V. cbn [fold_left] in V. rewrite Dx in V. unfold ULONG_MAX in V. destruct (Z.ltb_spec 18446744073709551615 (0 * 16 + d)); [lia|].
    destruct pre as [|p [|? ?]]; cbn [length] in Ln; try lia. cbn [app] in Ea. destruct minus.
    + destruct sp as [|? [|? ?]]; try discriminate. injection Sg as ->. right. right. exists x, d. split; [exact Ea|]. split; [exact Hx|]. subst v.
      unfold u8, u64. replace (- (0 * 16 + d)) with (- d) by lia. rewrite <- (Znumtheory.Zmod_div_mod 256 18446744073709551616) by (try lia; exists 72057594037927936; reflexivity).
      replace (256 - d) with (- d + 1 * 256) by lia. rewrite Z.mod_add by lia. reflexivity.
    + right. left. exists p, x, d. split; [exact Ea|]. split.
      { destruct Sg as [Sg|Sg].
        - left. subst sp. inversion Fsp; assumption.
        - right. destruct sp as [|? [|? ?]]; try discriminate. cbn [app] in Sg. congruence. }
      split; [exact Hx|]. subst v. unfold u8. rewrite Z.mod_small by lia. lia.
  - destruct t; cbn [length] in Ln; [|lia]. destruct pre; cbn [length] in Ln; [|lia]. cbn [app] in Ea. inversion Ft as [|? ? Fy _]; subst x0 l.
    destruct (digit_16_inv y Fy) as (e & Hy & Dy). assert (Be : 0 <= e <= 15) by (inversion Hy; lia).
    left. exists x, y, d, e. split; [exact Ea|]. split; [exact Hx|]. split; [exact Hy|].
    unfold value_in in V. cbn [fold_left] in V. rewrite Dx, Dy in V. unfold ULONG_MAX in V. destruct (Z.ltb_spec 18446744073709551615 ((0 * 16 + d) * 16 + e)); [lia|].
    destruct minus; [destruct sp; discriminate|]. subst v. unfold u8. rewrite Z.mod_small by lia. lia.
Qed.

(** ** Debug options *)
Definition upper (s : list Z) : Prop := Forall (fun u => 65 <= u <= 90) s.
Lemma spelled_iff U : upper U -> forall n, same_text n U = true <-> Forall2 (fun u c => c = u \/ c = u + 32) U n.
Proof.
  induction 1 as [|u U Hu _ IH]; intros [|c n].
  - split; [constructor|reflexivity].
  - split; [discriminate|intros Q; inversion Q].
  - split; [discriminate|intros Q; inversion Q].
  - cbn [same_text]. assert (E : lower c =? lower u = true <-> c = u \/ c = u + 32).
    { unfold lower. destruct (Z.leb_spec 65 u), (Z.leb_spec u 90); try lia. cbn [andb].
      destruct (Z.leb_spec 65 c), (Z.leb_spec c 90); cbn [andb]; lia. }
    rewrite Bool.andb_true_iff, E, IH. split; [intros [? ?]; constructor; assumption|intros Q; inversion Q; subst; split; assumption].
Qed.
Lemma upper_names : Forall (fun n => upper (lit n)) (debug_source_str ++ debug_level_str).
Proof. unfold upper. repeat (constructor; [vm_compute; repeat (constructor; [split; discriminate|]); constructor|]). constructor. Qed.
Lemma spelled_same name n : In name (debug_source_str ++ debug_level_str) -> (same_text n (lit name) = true <-> spelled name n).
Proof. intros I. apply spelled_iff. exact (proj1 (Forall_forall _ _) upper_names name I). Qed.
Lemma index_none names n : incl names (debug_source_str ++ debug_level_str) -> (forall name, In name names -> ~ spelled name n) -> forall i, index_of n names i = None.
Proof.
  induction names as [|m names IH]; intros I N i; [reflexivity|]. cbn [index_of]. destruct (same_text n (lit m)) eqn:S.
  - apply spelled_same in S; [|apply I; left; reflexivity]. destruct (N m (or_introl eq_refl) S).
  - apply IH; [intros ? ?; apply I; right; assumption|intros; apply N; right; assumption].
Qed.
Ltac letters H := unfold spelled in H; cbn [lit String.length] in H; repeat match type of H with Forall2 _ (_ :: _) ?n => let c := fresh "c" in let t := fresh "t" in
  let A := fresh "A" in let B := fresh "B" in inversion H as [|? c ? t A B]; subst; clear H; rename B into H end; inversion H; subst; clear H.
Lemma index_source name v n : In (name, v) debug_sources -> spelled name n -> exists i, index_of n debug_source_str 0 = Some i /\ Z.shiftl 1 i = v.
Proof.
  intros I H. cbn [debug_sources In] in I.
  repeat (destruct I as [I|I]; [injection I as <- <-; change (lit "TTL") with [84; 84; 76] in *; change (lit "TAL") with [84; 65; 76] in *; letters H;
    repeat match goal with A : _ \/ _ |- _ => destruct A as [->| ->] end; eexists; (split; [vm_compute; reflexivity|reflexivity])|]). destruct I.
Qed.
Lemma index_all n : spelled "ALL" n -> index_of n debug_source_str 0 = Some 4.
Proof. intros H. letters H. repeat match goal with A : _ \/ _ |- _ => destruct A as [->| ->] end; vm_compute; reflexivity. Qed.
Lemma index_level name v n : In (name, v) debug_levels -> spelled name n -> index_of n debug_level_str 0 = Some v.
Proof.
  intros I H. cbn [debug_levels In] in I.
  repeat (destruct I as [I|I]; [injection I as <- <-; letters H; repeat match goal with A : _ \/ _ |- _ => destruct A as [->| ->] end; vm_compute; reflexivity|]). destruct I.
Qed.
Lemma comma_word n : ~ In 0x2C n -> forall cur t, comma_list cur (n ++ t) = comma_list (cur ++ n) t.
Proof.
  induction n as [|c n IH]; intros N cur t; [rewrite app_nil_r; reflexivity|]. cbn [app comma_list]. destruct (Z.eqb_spec c 0x2C); [destruct N; left; congruence|].
  rewrite IH by (intros I; apply N; right; exact I). rewrite <- app_assoc. reflexivity.
Qed.
Definition word (n : list Z) : Prop := n <> [] /\ ~ In 0x2C n.
Lemma comma_separated ns : Forall word ns -> comma_list [] (separated ns) = ns.
Proof.
  induction 1 as [|n ns [NE NC] F IH]; [reflexivity|]. destruct ns as [|m ns].
  - cbn [separated]. rewrite <- (app_nil_r n) at 1. rewrite (comma_word n NC). cbn [app comma_list]. destruct n; [congruence|reflexivity].
  - change (separated (n :: m :: ns)) with (n ++ 0x2C :: separated (m :: ns)). rewrite (comma_word n NC). cbn [app comma_list]. change (0x2C =? 0x2C) with true. cbv iota.
    rewrite IH. destruct n; [congruence|reflexivity].
Qed.
Lemma spelled_word name n : In name (debug_source_str ++ debug_level_str) -> spelled name n -> word n.
Proof.
  intros I S. pose proof (proj1 (Forall_forall _ _) upper_names name I) as U. unfold spelled in S. split.
  - intros ->. inversion S as [E|]. cbn [debug_source_str debug_level_str app In] in I. repeat (destruct I as [<-|I]; [discriminate E|]). destruct I.
  - clear I. cbv beta in U. revert U S. generalize (lit name). intros U HU S. induction S as [|u c U n E S IH]; [intros []|]. inversion HU as [|? ? Hu HU']; subst.
    intros [Q|Q]; [lia|]. exact (IH HU' Q).
Qed.
Lemma lor_16 a b : 0 <= a < 16 -> 0 <= b < 16 -> 0 <= Z.lor a b < 16.
Proof.
  intros A B. assert (N : 0 <= Z.lor a b) by (apply Z.lor_nonneg; lia). split; [exact N|]. destruct (Z.eq_dec (Z.lor a b) 0) as [E|E]; [lia|].
  apply (Z.log2_lt_pow2 _ 4); [lia|]. rewrite Z.log2_lor by lia. apply Z.max_lub_lt; [destruct (Z.eq_dec a 0) as [->|]; [reflexivity|apply (Z.log2_lt_pow2 _ 4); lia]|
    destruct (Z.eq_dec b 0) as [->|]; [reflexivity|apply (Z.log2_lt_pow2 _ 4); lia]].
Qed.
Lemma land_lor_nz a b v : Z.land (Z.lor a b) v <> 0 <-> Z.land a v <> 0 \/ Z.land b v <> 0.
Proof.
  rewrite Z.land_lor_distr_l. pose proof (Z.lor_eq_0_iff (Z.land a v) (Z.land b v)) as Q. destruct (Z.eq_dec (Z.land a v) 0), (Z.eq_dec (Z.land b v) 0); tauto.
Qed.
Lemma mask_sources picks ns : incl picks debug_sources -> Forall2 (fun p n => spelled (fst p) n) picks ns -> forall m0, 0 <= m0 < 16 ->
  exists m, sources_mask ns m0 = inl m /\ 0 <= m < 16 /\ forall v, Z.land m v <> 0 <-> Z.land m0 v <> 0 \/ exists p, In p picks /\ Z.land (snd p) v <> 0.
Proof.
  intros I F. induction F as [|[name w] n picks ns S F IH]; intros m0 M.
  - exists m0. split; [reflexivity|]. split; [exact M|]. intros v. split; [auto|intros [K|(p & [] & _)]; exact K].
  - cbn [sources_mask]. pose proof (I _ (or_introl eq_refl)) as Iw. destruct (index_source name w n Iw S) as (i & E & V). rewrite E, V.
    destruct (IH (fun p Q => I p (or_intror Q)) (Z.lor m0 w)) as (m & Em & B & L).
    { apply lor_16; [exact M|]. cbn [debug_sources In] in Iw. repeat (destruct Iw as [Iw|Iw]; [injection Iw as <- <-; lia|]). destruct Iw. }
    exists m. split; [exact Em|]. split; [exact B|]. intros v. rewrite L, land_lor_nz. cbn [In]. split.
    + intros [[K|K]|(p & J & K)]; [left; exact K|right; exists (name, w); split; [left; reflexivity|exact K]|right; exists p; split; [right; exact J|exact K]].
    + intros [K|(p & [<-|J] & K)]; [left; left; exact K|left; right; exact K|right; exists p; split; [exact J|exact K]].
Qed.
Lemma sources_distinct p q : In p debug_sources -> In q debug_sources -> (Z.land (snd p) (snd q) <> 0 <-> p = q).
Proof.
  intros P Q. cbn [debug_sources In] in P, Q. repeat (destruct P as [<-|P]; [repeat (destruct Q as [<-|Q]; [vm_compute; split; congruence|]); destruct Q|]). destruct P.
Qed.
Lemma mask_unknown ns : forall m0, (exists m, sources_mask ns m0 = inl m) \/ exists n, In n ns /\ sources_mask ns m0 = inr (lit "Unknown debug source (--debug-source) argument " ++ [0x22] ++ n ++ [0x22]) /\
  forall name, In name debug_source_str -> ~ spelled name n.
Proof.
  induction ns as [|n ns IH]; intros m0; [left; eexists; reflexivity|]. cbn [sources_mask]. destruct (index_of n debug_source_str 0) as [i|] eqn:E.
  - destruct (IH (Z.lor m0 (Z.shiftl 1 i))) as [K|(n' & Hn & K)]; [left; exact K|right; exists n'; split; [right; exact Hn|exact K]].
  - right. exists n. split; [left; reflexivity|]. split; [reflexivity|]. intros name In1 S.
    assert (G : forall names j, incl names debug_source_str -> In name names -> index_of n names j <> None).
    { induction names as [|x names IHn]; intros j Inc Hin; [destruct Hin|]. cbn [index_of]. destruct (same_text n (lit x)) eqn:Q; [discriminate|].
      destruct Hin as [->|Hin]; [|apply IHn; [intros ? ?; apply Inc; right; assumption|exact Hin]].
      apply (spelled_same name n) in S; [congruence|]. apply in_or_app. left. exact In1. }
    exact (G debug_source_str 0 (fun x Q => Q) In1 E).
Qed.
Lemma mask_known ns : Forall (fun n => exists name, In name debug_source_str /\ spelled name n) ns -> forall m0, exists m, sources_mask ns m0 = inl m.
Proof.
  intros F m0. destruct (mask_unknown ns m0) as [K|(n & Hn & _ & N)]; [exact K|].
  destruct (proj1 (Forall_forall _ _) F n Hn) as (name & I & S). destruct (N name I S).
Qed.
Lemma mask_unknown_in ns n : In n ns -> (forall name, In name debug_source_str -> ~ spelled name n) -> forall m0 m, sources_mask ns m0 <> inl m.
Proof.
  intros I N. induction ns as [|x ns IH]; [destruct I|]. intros m0 m. cbn [sources_mask]. destruct I as [->|I].
  - rewrite (index_none debug_source_str n) by (try (intros ? ?; apply in_or_app; left; assumption); exact N). discriminate.
  - destruct (index_of x debug_source_str 0); [apply IH; exact I|discriminate].
Qed.

(** ** Transaction data *)
Lemma format_n value (buf : list Z) n : 0 <= value < 4294967296 -> (1 <= n <= length buf)%nat -> value < 10 ^ (2 * Z.of_nat n) ->
  exists v, format_in uint_to_format_n value buf n = Ret (v, v ++ skipn n buf) /\ in_format_n n value v.
Proof.
  intros V N M. assert (L : length (firstn n buf) = n) by (rewrite firstn_length; lia).
  destruct (C13_format_n_round_trip value (firstn n buf) V) as (v & E & Lv & B & D & _); [intros Q; rewrite Q in L; cbn in L; lia|].
  exists v. unfold format_in. rewrite E. split; [reflexivity|]. split; [congruence|]. split; [exact B|]. rewrite D. unfold Zlen. rewrite L. apply Z.mod_small. lia.
Qed.
Lemma format_b value (buf : list Z) n : 0 <= value < 4294967296 -> (1 <= n <= length buf)%nat -> value < 256 ^ Z.of_nat n ->
  exists v, format_in uint_to_format_b value buf n = Ret (v, v ++ skipn n buf) /\ in_format_b n value v.
Proof.
  intros V N M. assert (L : length (firstn n buf) = n) by (rewrite firstn_length; lia).
  destruct (C15_format_b_encode value (firstn n buf) V) as (v & E & Lv & B & D & _); [lia|].
  exists v. unfold format_in. rewrite E. split; [reflexivity|]. split; [congruence|]. split; [exact B|]. rewrite D. unfold Zlen. rewrite L. apply Z.mod_small. lia.
Qed.
Lemma two_digits_bcd v : 0 <= v <= 99 -> in_format_n 1 v [two_digits v].
Proof.
  intros V. assert (Q : forallb (fun v => let o := two_digits v in (0 <=? o) && (o <? 256) && (o / 16 <=? 9) && (o mod 16 <=? 9) && (o / 16 * 10 + o mod 16 =? v)) (map Z.of_nat (seq 0 100)) = true)
    by (vm_compute; reflexivity).
  rewrite forallb_forall in Q. specialize (Q v). cbv zeta in Q. assert (I : In v (map Z.of_nat (seq 0 100))).
  { replace v with (Z.of_nat (Z.to_nat v)) by lia. apply in_map, in_seq. lia. }
  specialize (Q I). rewrite !Bool.andb_true_iff in Q. destruct Q as ((((A & B) & C) & D) & E).
  split; [reflexivity|]. split; [constructor; [|constructor]; unfold is_byte; lia|]. unfold decval. cbn [fold_left]. lia.
Qed.
Lemma year_bcd y : 0 <= y -> u8 (Z.lor (Z.shiftl (Z.rem (Z.quot y 10) 10) 4) (Z.rem y 10)) = two_digits (y mod 100).
Proof.
  intros Y. unfold two_digits. f_equal. rewrite !Z.quot_div_nonneg, !Z.rem_mod_nonneg by (try lia; try apply Z.div_pos; try apply Z.mod_pos_bound; lia).
  replace (y / 10 mod 10) with (y mod 100 / 10) by (Z.div_mod_to_equations; lia). replace (y mod 100 mod 10) with (y mod 10) by (Z.div_mod_to_equations; lia). reflexivity.
Qed.
Lemma load_params_spec (buf : list Z) t seq type amount other : length buf = 6%nat -> calendar t -> 0 <= seq < 100000000 -> is_byte type ->
  0 <= amount < 4294967296 -> 0 <= other < 4294967296 ->
  exists sq y mo d h mi se an ab on ob,
    load_params buf t seq type amount other =
      Ret [fld 0x9F41 sq 0; fld 0x9A [y; mo; d] 0; fld 0x9F21 [h; mi; se] 0; fld 0x5F2A [0x09; 0x78] 0; fld 0x5F36 [0x02] 0;
           fld 0x9C [type] 0; fld 0x9F02 an 0; fld 0x81 ab 0; fld 0x9F03 on 0; fld 0x9F04 ob 0] /\
    in_format_n 4 seq sq /\ in_format_n 1 (tm_year t mod 100) [y] /\ in_format_n 1 (tm_mon t + 1) [mo] /\ in_format_n 1 (tm_mday t) [d] /\
    in_format_n 1 (tm_hour t) [h] /\ in_format_n 1 (tm_min t) [mi] /\ in_format_n 1 (tm_sec t) [se] /\
    in_format_n 6 amount an /\ in_format_b 4 amount ab /\ in_format_n 6 other on /\ in_format_b 4 other ob.
Proof.
  intros L (Y & M & D & H & Mi & S) Q Ty A O. unfold load_params.
  destruct (format_n seq buf 4) as (sq & E1 & F1); [lia|lia|exact (proj2 Q)|]. rewrite E1. cbn [bind].
  assert (L1 : length (sq ++ skipn 4 buf) = 6%nat) by (rewrite app_length, (proj1 F1), skipn_length; lia). set (b1 := sq ++ skipn 4 buf) in *. clearbody b1.
  destruct (format_n amount b1 6) as (an & E2 & F2); [exact A|lia|change (amount < 1000000000000); lia|]. rewrite E2. cbn [bind].
  assert (L2 : length (an ++ skipn 6 b1) = 6%nat) by (rewrite app_length, (proj1 F2), skipn_length; lia). set (b2 := an ++ skipn 6 b1) in *. clearbody b2.
  destruct (format_b amount b2 4) as (ab & E3 & F3); [exact A|lia|exact (proj2 A)|]. rewrite E3. cbn [bind].
  assert (L3 : length (ab ++ skipn 4 b2) = 6%nat) by (rewrite app_length, (proj1 F3), skipn_length; lia). set (b3 := ab ++ skipn 4 b2) in *. clearbody b3.
  destruct (format_n other b3 6) as (on & E4 & F4); [exact O|lia|change (other < 1000000000000); lia|]. rewrite E4. cbn [bind].
  assert (L4 : length (on ++ skipn 6 b3) = 6%nat) by (rewrite app_length, (proj1 F4), skipn_length; lia). set (b4 := on ++ skipn 6 b3) in *. clearbody b4.
  destruct (format_b other b4 4) as (ob & E5 & F5); [exact O|lia|exact (proj2 O)|]. rewrite E5. cbn [bind].
  rewrite (year_bcd (tm_year t) Y). do 11 eexists. split; [reflexivity|].
  split; [exact F1|]. split; [apply two_digits_bcd; pose proof (Z.mod_pos_bound (tm_year t) 100); lia|].
  do 5 (split; [apply two_digits_bcd; lia|]). split; [exact F2|]. split; [exact F3|]. split; [exact F4|exact F5].
Qed.
Lemma number_nonneg ds : digits ds -> 0 <= number ds.
Proof.
  intros D. unfold number. assert (G : forall l v, digits l -> 0 <= v -> 0 <= fold_left (fun a d => a * 10 + d) l v).
  { induction l as [|e l IH]; intros v Dl V; [exact V|]. inversion Dl; subst. cbn [fold_left]. apply IH; [assumption|lia]. } apply G; [exact D|lia].
Qed.
Lemma holds_at (a b : list field) tag v fs : fs = a ++ fld tag v 0 :: b -> forallb (fun f => negb (f_tag f =? tag)) (a ++ b) = true -> holds fs tag v.
Proof.
  intros -> F. exists a, (fld tag v 0), b. do 5 (split; [reflexivity|]). intros I. apply in_map_iff in I. destruct I as (f & E & I).
  rewrite forallb_forall in F. specialize (F f I). rewrite E, Z.eqb_refl in F. discriminate.
Qed.
Lemma load_params_holds (buf : list Z) t seq type amount other : length buf = 6%nat -> calendar t -> 0 <= seq < 100000000 -> is_byte type ->
  0 <= amount < 4294967296 -> 0 <= other < 4294967296 ->
  exists fs, load_params buf t seq type amount other = Ret fs /\ length fs = 10%nat /\
    holds fs 0x9C [type] /\ holds fs 0x5F2A [0x09; 0x78] /\ holds fs 0x5F36 [0x02] /\
    (exists v, holds fs 0x9F41 v /\ in_format_n 4 seq v) /\
    (exists y m d, holds fs 0x9A [y; m; d] /\ in_format_n 1 (tm_year t mod 100) [y] /\ in_format_n 1 (tm_mon t + 1) [m] /\ in_format_n 1 (tm_mday t) [d]) /\
    (exists h m s, holds fs 0x9F21 [h; m; s] /\ in_format_n 1 (tm_hour t) [h] /\ in_format_n 1 (tm_min t) [m] /\ in_format_n 1 (tm_sec t) [s]) /\
    (exists v, holds fs 0x9F02 v /\ in_format_n 6 amount v) /\ (exists v, holds fs 0x81 v /\ in_format_b 4 amount v) /\
    (exists v, holds fs 0x9F03 v /\ in_format_n 6 other v) /\ (exists v, holds fs 0x9F04 v /\ in_format_b 4 other v).
Proof.
  intros L C Q Ty A O. destruct (load_params_spec buf t seq type amount other L C Q Ty A O) as (sq & y & mo & d & h & mi & se & an & ab & on & ob & E & F1 & F2 & F3 & F4 & F5 & F6 & F7 & F8 & F9 & F10 & F11).
  eexists. split; [exact E|]. split; [reflexivity|]. clear E.
  set (l := [fld 0x9F41 sq 0; fld 0x9A [y; mo; d] 0; fld 0x9F21 [h; mi; se] 0; fld 0x5F2A [0x09; 0x78] 0; fld 0x5F36 [0x02] 0;
           fld 0x9C [type] 0; fld 0x9F02 an 0; fld 0x81 ab 0; fld 0x9F03 on 0; fld 0x9F04 ob 0]).
  assert (K : forall k tag v, nth_error l k = Some (fld tag v 0) -> forallb (fun f => negb (f_tag f =? tag)) (firstn k l ++ skipn (S k) l) = true -> holds l tag v).
  { intros k tag v N F. apply (holds_at (firstn k l) (skipn (S k) l)); [|exact F]. clear F. revert k N. generalize l. induction l0 as [|f l0 IH]; intros [|k] N; try discriminate N.
    - injection N as ->. reflexivity.
    - cbn [firstn skipn app]. f_equal. apply IH. exact N. }
  split; [apply (K 5%nat); reflexivity|]. split; [apply (K 3%nat); reflexivity|]. split; [apply (K 4%nat); reflexivity|].
  split; [exists sq; split; [apply (K 0%nat); reflexivity|exact F1]|].
  split; [exists y, mo, d; split; [apply (K 1%nat); reflexivity|auto]|].
  split; [exists h, mi, se; split; [apply (K 2%nat); reflexivity|auto]|].
  split; [exists an; split; [apply (K 6%nat); reflexivity|auto]|].
  split; [exists ab; split; [apply (K 7%nat); reflexivity|auto]|].
  split; [exists on; split; [apply (K 8%nat); reflexivity|auto]|].
  exists ob; split; [apply (K 9%nat); reflexivity|auto].
Qed.
