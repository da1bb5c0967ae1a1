(** The trace printed by the tools (C157, C158). *)
From Coq Require Import String.
From Verif Require Import Base BaseLemmas BerModel BerSpec BerProofs TlvModel TlvListModel TlvSpec StrModel StrSpec StrProofs CapduModel CapduSpec CapduProofs CapduProps FlagsSpec InfoModel InfoSpec InfoProofs InfoProps
  AtrModel ToolsModel ToolsSpec ToolsProps AppModel AppSpec TermModel TermSpec PrintModel PrintSpec PrintProofs PrintProps TraceModel TraceSpec.
Open Scope string_scope.
Open Scope Z_scope.
Open Scope list_scope.
Notation length := List.length.

Section Trace.
Context (e : env) (junk jid info_str : list Z) (Lj : length junk = 1024%nat) (Li : length jid = 511%nat).
Notation body := (print_emv_debug_internal e junk jid info_str).
Lemma body_msg str buf : body TYPE_MSG str buf = Ret (str ++ [10]). Proof. reflexivity. Qed.
(** Data are shown completely. *)
Lemma body_octets type_ str d : bytes d -> ~ In type_ [TYPE_MSG; TYPE_TLV; TYPE_ATR; TYPE_CAPDU; TYPE_RAPDU] -> body type_ str (Octets d) = Ret (str ++ lit ": " ++ hex_text d ++ [10]).
Proof.
  intros B N. unfold print_emv_debug_internal. cbn [In] in N.
  destruct (Z.eqb_spec type_ TYPE_MSG); [exfalso; apply N; auto|]. destruct (Z.eqb_spec type_ TYPE_TLV); [exfalso; apply N; auto|]. destruct (Z.eqb_spec type_ TYPE_ATR); [exfalso; apply N; auto|].
  destruct (Z.eqb_spec type_ TYPE_CAPDU); [exfalso; apply N; auto 6|]. destruct (Z.eqb_spec type_ TYPE_RAPDU); [exfalso; apply N; auto 7|].
  unfold print_buf. rewrite hex_02X by exact B. rewrite <- app_assoc. reflexivity.
Qed.
Lemma body_capdu str d : bytes d -> (4 <= length d)%nat -> exists t, body TYPE_CAPDU str (Octets d) = Ret t /\ shows_octets str d t.
Proof.
  intros B L. destruct (C123_command_partial d junk jid B L ltac:(lia) Li) as (r & new & s & _ & _ & E). cbn [print_emv_debug_internal Z.eqb TYPE_CAPDU TYPE_MSG TYPE_TLV TYPE_ATR].
  change (body TYPE_CAPDU str (Octets d)) with (let* t := print_capdu d junk jid in Ret (str ++ lit ": " ++ t)). rewrite E. cbn [bind]. eexists. split; [reflexivity|].
  eexists. split; [reflexivity|]. destruct (r =? 0); [right; eauto|left; reflexivity].
Qed.
Lemma body_rapdu str d : bytes d -> d <> [] -> exists t, body TYPE_RAPDU str (Octets d) = Ret t /\ shows_octets str d t.
Proof using Lj Li.
  intros B NE. change (body TYPE_RAPDU str (Octets d)) with (let* t := print_rapdu d junk in Ret (str ++ lit ": " ++ t)).
  destruct (Nat.ltb_spec (length d) 2) as [L|L].
  - rewrite (C123_short_response d junk B L). destruct d as [|a d]; [congruence|]. cbn [bind]. eexists. split; [reflexivity|]. exists []. auto.
  - destruct (exists_last NE) as (d1 & b & ->). rewrite app_length in L. cbn [length] in L. assert (NE1 : d1 <> []) by (intros ->; cbn [length] in L; lia).
    destruct (exists_last NE1) as (d2 & a & ->). rewrite <- app_assoc in B |- *. cbn [app] in B |- *. apply Forall_app in B as [B2 B]. inversion B as [|? ? Ba Bb]; subst. inversion Bb; subst.
    destruct (C123_response d2 a b junk B2 Ba ltac:(assumption) ltac:(intros ->; discriminate Lj)) as (s & _ & E). rewrite E. cbn [bind]. eexists. split; [reflexivity|].
    eexists. split; [reflexivity|]. destruct (firstn _ s); [left; reflexivity|right; eauto].
Qed.
End Trace.

Lemma ten_digits k : forall v, 0 <= v < 10 ^ Z.of_nat k -> exists ds, p_u0 k v = chars ds /\ digits ds /\ length ds = k /\ number ds = v.
Proof.
  induction k as [|k IH]; intros v R; [exists []; cbn in *; repeat split; [constructor|lia]|]. rewrite Nat2Z.inj_succ, Z.pow_succ_r in R by lia.
  assert (Q : 0 <= v / 10 < 10 ^ Z.of_nat k) by (split; [apply Z.div_pos; lia|apply Z.div_lt_upper_bound; lia]).
  destruct (IH _ Q) as (ds & E & D & L & N). pose proof (Z.mod_pos_bound v 10 ltac:(lia)). exists (ds ++ [v mod 10]). cbn [p_u0]. rewrite E. split; [unfold chars; rewrite map_app; reflexivity|].
  split; [apply Forall_app; split; [exact D|constructor; [lia|constructor]]|]. split; [rewrite app_length, L; cbn [length]; lia|].
  unfold number in *. rewrite fold_left_app, N. cbn [fold_left]. pose proof (Z.div_mod v 10 ltac:(lia)). lia.
Qed.
Lemma src_called source : called source_names "???" source (src_str source).
Proof.
  unfold called, src_str. cbn [source_names map fst In].
  destruct (Z.eqb_spec source 1) as [->|]; [left; eauto|]. destruct (Z.eqb_spec source 2) as [->|]; [left; eauto 6|]. destruct (Z.eqb_spec source 4) as [->|]; [left; eauto 8|].
  destruct (Z.eqb_spec source 8) as [->|]; [left; eauto 10|]. right. split; [intuition|reflexivity].
Qed.
Lemma level_called level : called level_names "????" level (level_str level).
Proof.
  unfold called, level_str. cbn [level_names map fst In].
  destruct (Z.eqb_spec level 1) as [->|]; [left; eauto|]. destruct (Z.eqb_spec level 2) as [->|]; [left; eauto 6|]. destruct (Z.eqb_spec level 3) as [->|]; [left; eauto 8|].
  destruct (Z.eqb_spec level 4) as [->|]; [left; eauto 10|]. right. split; [intuition|reflexivity].
Qed.

(** ** C157: messages and data *)
(** Data the callbacks are given: a command has its header, and an answer is not empty.  TLV data: C158. *)
Definition traceable (type_ : Z) (d : list Z) : Prop :=
  bytes d /\ type_ <> 3 /\ type_ <> 4 /\ (type_ = 5 -> (4 <= length d)%nat) /\ (type_ = 6 -> d <> []).
Lemma body_line e junk jid info_str type_ str d : length junk = 1024%nat -> length jid = 511%nat -> traceable type_ d ->
  exists t, print_emv_debug_internal e junk jid info_str type_ str (Octets d) = Ret t /\ (type_ = 1 -> t = str ++ [10]) /\ (type_ <> 1 -> shows_octets str d t).
Proof.
  intros Lj Li (B & N3 & N4 & T5 & T6).
  destruct (Z.eq_dec type_ 1) as [->|N1]; [exists (str ++ [10]); split; [reflexivity|split; [reflexivity|congruence]]|].
  destruct (Z.eq_dec type_ 5) as [->|N5]; [destruct (body_capdu e junk jid info_str Lj Li str d B (T5 eq_refl)) as (t & E & O); exists t; split; [exact E|split; [congruence|auto]]|].
  destruct (Z.eq_dec type_ 6) as [->|N6]; [destruct (body_rapdu e junk jid info_str Lj Li str d B (T6 eq_refl)) as (t & E & O); exists t; split; [exact E|split; [congruence|auto]]|].
  exists (str ++ lit ": " ++ hex_text d ++ [10]). split; [apply body_octets; [exact B|cbn [In]; unfold TYPE_MSG, TYPE_TLV, TYPE_ATR, TYPE_CAPDU, TYPE_RAPDU; intuition]|]. split; [congruence|]. intros _. exists []. auto.
Qed.
Theorem C157_line : forall e junk jid info_str timestamp source level type_ str d, length junk = 1024%nat -> length jid = 511%nat -> 0 <= timestamp < 4294967296 -> traceable type_ d ->
  exists n m ds t, called source_names "???" source n /\ called level_names "????" level m /\ digits ds /\ length ds = 10%nat /\ number ds = timestamp /\
    print_emv_debug e junk jid info_str source type_ str (Octets d) = Ret (lit "[" ++ n ++ lit "] " ++ t) /\
    print_emv_debug_verbose e junk jid info_str timestamp source level type_ str (Octets d) = Ret (lit "[" ++ chars ds ++ lit "," ++ n ++ lit "," ++ m ++ lit "] " ++ t) /\
    (type_ = 1 -> t = str ++ [10]) /\ (type_ <> 1 -> shows_octets str d t).
Proof.
  intros e junk jid info_str timestamp source level type_ str d Lj Li Ht Hd. destruct (body_line e junk jid info_str type_ str d Lj Li Hd) as (t & E & T1 & T2).
  destruct (ten_digits 10 timestamp) as (ds & Ed & D & L & N); [cbn; lia|]. exists (src_str source), (level_str level), ds, t.
  split; [apply src_called|]. split; [apply level_called|]. split; [exact D|]. split; [exact L|]. split; [exact N|]. unfold print_emv_debug, print_emv_debug_verbose. rewrite E, Ed. cbn [bind]. auto.
Qed.
(** Nothing is lost: different data never give the same text. *)
Definition note_text (n : list Z) : Prop := n = [] \/ exists s, n = lit " (" ++ s ++ lit ")".
Lemma hex_digits v : 0 <= v < 16 -> hex_digit v <> 10 /\ hex_digit v <> 32 /\ forall w, 0 <= w < 16 -> hex_digit v = hex_digit w -> v = w.
Proof.
  intros V. assert (S : forallb (fun v => negb (hex_digit v =? 10) && negb (hex_digit v =? 32) && forallb (fun w => implb (hex_digit v =? hex_digit w) (v =? w)) (map Z.of_nat (seq 0 16)))%bool (map Z.of_nat (seq 0 16)) = true)
    by (vm_compute; reflexivity).
  assert (In16 : forall w, 0 <= w < 16 -> In w (map Z.of_nat (seq 0 16))) by (intros w W; apply in_map_iff; exists (Z.to_nat w); split; [lia|apply in_seq; lia]).
  rewrite forallb_forall in S. specialize (S v (In16 v V)). apply andb_prop in S as [S1 S2]. rewrite forallb_forall in S2. split; [lia|]. split; [lia|]. intros w W E. specialize (S2 w (In16 w W)).
  rewrite E, Z.eqb_refl in S2. cbn [implb] in S2. lia.
Qed.
Lemma hex_inj n1 n2 : note_text n1 -> note_text n2 -> forall d1 d2, bytes d1 -> bytes d2 -> hex_text d1 ++ n1 ++ [10] = hex_text d2 ++ n2 ++ [10] -> d1 = d2.
Proof.
  intros H1 H2. assert (Nb : forall n b d r, note_text n -> is_byte b -> n ++ [10] = hex_text (b :: d) ++ r -> False).
  { intros n b d r [-> | (s & ->)] Bb E; unfold is_byte in Bb; destruct (hex_digits (b / 16) ltac:(lia)) as (X & Y & _); apply (f_equal (hd 0)) in E; change (lit " (") with [32; 40] in E; cbn [hex_text flat_map app hd] in E; congruence. }
  induction d1 as [|a d1 IH]; intros [|b d2] B1 B2 E; [reflexivity| | |].
  - inversion B2; subst. destruct (Nb n1 b d2 (n2 ++ [10]) H1 ltac:(assumption) E).
  - inversion B1; subst. symmetry in E. destruct (Nb n2 a d1 (n1 ++ [10]) H2 ltac:(assumption) E).
  - inversion B1 as [|? ? Ba Bd1]; inversion B2 as [|? ? Bb Bd2]; subst. unfold is_byte in Ba, Bb. unfold hex_text in E. cbn [flat_map app] in E. injection E as E1 E2 E.
    apply (proj2 (proj2 (hex_digits (a / 16) ltac:(lia)))) in E1; [|lia]. apply (proj2 (proj2 (hex_digits (a mod 16) ltac:(lia)))) in E2; [|lia]. f_equal; [|apply IH; auto].
    rewrite (Z.div_mod a 16), (Z.div_mod b 16) by lia. congruence.
Qed.
Lemma app_cut {A} (a b c d : list A) : length a = length b -> a ++ c = b ++ d -> c = d.
Proof. revert b. induction a as [|x a IH]; intros [|y b] L E; try discriminate L; [exact E|]. injection E as _ E. exact (IH b ltac:(injection L; auto) E). Qed.
Theorem C157_recovered : forall e junk jid info_str type_ source1 source2 str d1 d2 t, length junk = 1024%nat -> length jid = 511%nat -> type_ <> 1 -> traceable type_ d1 -> traceable type_ d2 ->
  print_emv_debug e junk jid info_str source1 type_ str (Octets d1) = Ret t -> print_emv_debug e junk jid info_str source2 type_ str (Octets d2) = Ret t -> d1 = d2.
Proof.
  intros e junk jid info_str type_ source1 source2 str d1 d2 t Lj Li N1 T1 T2 E1 E2. unfold print_emv_debug in *.
  destruct (body_line e junk jid info_str type_ str d1 Lj Li T1) as (t1 & Q1 & _ & X1). destruct (body_line e junk jid info_str type_ str d2 Lj Li T2) as (t2 & Q2 & _ & X2).
  rewrite Q1 in E1. rewrite Q2 in E2. cbn [bind] in E1, E2. rewrite <- E1 in E2. apply (f_equal (fun m => match m with Ret x => x | _ => [] end)) in E2. destruct (X1 N1) as (n1 & -> & Y1). destruct (X2 N1) as (n2 & -> & Y2).
  assert (L3 : forall s, length (src_str s) = 3%nat) by (intros s; unfold src_str; repeat match goal with |- context [if ?b then _ else _] => destruct b end; reflexivity).
  apply app_inv_head in E2. apply app_cut in E2; [|rewrite !L3; reflexivity]. apply app_inv_head, app_inv_head, app_inv_head in E2. symmetry in E2.
  exact (hex_inj n1 n2 Y1 Y2 d1 d2 (proj1 T1) (proj1 T2) E2).
Qed.
Example C157_ex :
  print_emv_debug_verbose ex_env (repeat 7 1024) (repeat 7 511) [] 1234567 1 3 5 (lit "C-APDU") (Octets [0x80; 0xCA; 0x9F; 0x17; 0x00]) =
    Ret (lit "[0001234567,TTL,CARD] C-APDU: 80CA9F1700 (GET DATA field 9F17)" ++ [10]) /\
  print_emv_debug ex_env (repeat 7 1024) (repeat 7 511) [] 2 1 (lit "SELECT application") (Octets []) = Ret (lit "[TAL] SELECT application" ++ [10]) /\
  print_emv_debug ex_env (repeat 7 1024) (repeat 7 511) [] 3 6 (lit "R-APDU") (Octets [0x90; 0x00]) = Ret (lit "[???] R-APDU: 9000 (Normal)" ++ [10]).
Proof. repeat split; vm_compute; reflexivity. Qed.

(** ** C158: data objects *)
(** The octets come first; then the fields as of C121 and C122.  The only failures are those of C121. *)
Theorem C158_tlv_partial : forall e junk jid info_str source str d, arrays e -> length info_str = 2048%nat -> bytes d -> small d ->
  (exists n t, called source_names "???" source n /\ print_emv_text e (lit "  ") info_str d 1 false = Ret t /\
     print_emv_debug e junk jid info_str source 3 str (Octets d) = Ret (lit "[" ++ n ++ lit "] " ++ str ++ lit ": " ++ hex_text d ++ [10] ++ t)) \/
  (print_emv_debug e junk jid info_str source 3 str (Octets d) = UB /\
   exists pre enc post tag flags v, d = pre ++ enc ++ post /\ encodes enc tag flags v /\ unprintable tag v info_str).
Proof.
  intros e junk jid info_str source str d Ae Ls B Sm. unfold print_emv_debug.
  change (print_emv_debug_internal e junk jid info_str 3 str (Octets d)) with (let* t := print_emv_text e (lit "  ") info_str d 1 false in Ret (print_buf (Some str) d ++ t)).
  destruct (C121_safe_partial e (lit "  ") info_str d 1 false Ae ltac:(lia) B Sm) as [(t & E)|(E & X)]; rewrite E; cbn [bind]; [left|right; auto].
  exists (src_str source), t. split; [apply src_called|]. split; [reflexivity|]. unfold print_buf. rewrite hex_02X by exact B. rewrite <- !app_assoc. reflexivity.
Qed.
(** With the settings emv-tool has without options, file control information that the library accepts makes the trace fail. *)
Theorem C158_fci_refuted : exists fci a v, bytes fci /\ app_create_from_fci (repeat 0 17) fci = Ret (Some a) /\
  debug_run dbg0 [DInit (o_sources settings0) (o_level settings0) (Some 0%nat); DEvent 2 2 3 (Some (lit "FCI")) fci 0 0] = [v] /\ v_data v = fci /\
  print_emv_debug ex_env (repeat 0 1024) (repeat 0 511) (repeat 0 2048) (v_source v) (v_type v) (v_msg v) (Octets (v_data v)) = UB.
Proof.
  exists [0x6F; 0x10; 0x84; 0x07; 0xA0; 0; 0; 0; 3; 0x10; 0x10; 0xA5; 0x05; 0x9F; 0x38; 0x02; 0x84; 0x0E]. eexists. eexists.
  split; [repeat constructor; unfold is_byte; lia|]. split; [vm_compute; reflexivity|]. split; [vm_compute; reflexivity|]. split; [reflexivity|].
  vm_compute. reflexivity.
Qed.
Example C158_ex : print_emv_debug ex_env [] [] (repeat 0 2048) 2 3 (lit "FCI") (Octets [0x6F; 0x05; 0x84; 0x03; 0x41; 0x42; 0x43]) =
  Ret (lit "[TAL] FCI: 6F058403414243" ++ [10] ++ lit "  6F | File Control Information (FCI) Template : [5]" ++ [10] ++ lit "    84 | Dedicated File (DF) Name : [3] 41 42 43" ++ [10]).
Proof. vm_compute. reflexivity. Qed.
Print Assumptions C157_line. Print Assumptions C157_recovered. Print Assumptions C158_tlv_partial. Print Assumptions C158_fci_refuted.
