(** Property theorems for src/iso8859_simple.c: C47, C48. *)
From Verif Require Import Base BaseLemmas Iso8859Model Iso8859Spec Iso8859Proofs.

(** C47.  Graphic text (up to its end or a NUL) into a buffer with room for its
    UTF-8 form and the terminator gives exactly that form. *)
Theorem C47_utf8_exact : forall cs tail utf8 u, Forall graphic cs -> (1 <= length (cs ++ tail))%nat ->
  tail = [] \/ (exists t, tail = 0 :: t) -> utf8_text cs u -> (length u < length utf8)%nat ->
  iso8859_to_utf8 1 (cs ++ tail) utf8 = Ret (0, u ++ 0 :: skipn (S (length u)) utf8).
Proof. exact utf8_exact. Qed.
Print Assumptions C47_utf8_exact.
(** C47.  Every graphic text has a UTF-8 form. *)
Theorem C47_utf8_exists : forall cs, Forall graphic cs -> exists u, utf8_text cs u.
Proof. intros cs G. exists (flat_map enc1 cs). now apply utf8_text_enc. Qed.
Print Assumptions C47_utf8_exists.
(** C47.  A control character is an error (if the characters before it fit). *)
Theorem C47_utf8_control : forall cs c rest utf8 u, Forall graphic cs -> is_byte c -> c <> 0 -> ~ graphic c ->
  utf8_text cs u -> (length u + 2 <= length utf8)%nat ->
  exists b, iso8859_to_utf8 1 (cs ++ c :: rest) utf8 = Ret (2, b) /\ length b = length utf8.
Proof.
  intros cs c rest utf8 u G B C0 NG U L. apply utf8_control; try assumption.
  replace (flat_map enc1 cs) with u; [assumption|].
  clear -U G. induction U as [|c l cs ls Hc Hs IH]; [reflexivity|]. inversion G; subst. cbn [flat_map].
  rewrite IH by assumption. f_equal. unfold enc1. inversion Hc; subst.
  - destruct (Z.ltb_spec c 128); [reflexivity|lia].
  - destruct (Z.ltb_spec (hi * 64 + lo) 128); [lia|]. f_equal; [lia|f_equal; lia].
Qed.
Print Assumptions C47_utf8_control.
(** C47.  Other code pages are refused. *)
Theorem C47_utf8_codepage : forall cp iso utf8, cp <> 1 -> (1 <= length iso)%nat -> (1 <= length utf8)%nat ->
  iso8859_is_supported cp = false /\ exists b, iso8859_to_utf8 cp iso utf8 = Ret (1, b).
Proof.
  intros cp iso utf8 H L1 L2. unfold iso8859_to_utf8, iso8859_is_supported.
  destruct (Z.eqb_spec cp 1); [contradiction|]. split; [reflexivity|].
  destruct (Nat.eqb_spec (length iso) 0); [lia|]. destruct (Nat.eqb_spec (length utf8) 0); [lia|].
  cbn [orb negb]. rewrite wr_Ret by lia. cbn [bind]. eauto.
Qed.
Print Assumptions C47_utf8_codepage.
Example C47_ex : iso8859_to_utf8 1 [0x43; 0xE9; 0x21] (repeat 7 6) = Ret (0, [0x43; 0xC3; 0xA9; 0x21; 0; 7]) /\
  utf8_text [0x43; 0xE9; 0x21] [0x43; 0xC3; 0xA9; 0x21].
Proof.
  split; [vm_compute; reflexivity|].
  apply (utf8_cons _ [0x43]); [constructor; lia|]. apply (utf8_cons _ [0xC3; 0xA9]); [apply (utf8_2 0xE9 3 0x29); lia|].
  apply (utf8_cons _ [0x21]); [constructor; lia|]. constructor.
Qed.

(** C48.  False: text whose UTF-8 form exactly fills the buffer, ending in a
    two-octet character, is terminated behind the buffer. *)
Theorem C48_utf8_bounds_refuted :
  exists cp iso utf8, bytes iso /\ iso8859_to_utf8 cp iso utf8 = UB.
Proof.
  exists 1, [0xE9], [0; 0]. split; [apply bytes_one; lia|vm_compute; reflexivity].
Qed.
Print Assumptions C48_utf8_bounds_refuted.
(** C48.  The same for every such text and buffer. *)
Theorem C48_utf8_overflow : forall cs c utf8 u, Forall graphic cs -> 0xA0 <= c <= 0xFF ->
  utf8_text (cs ++ [c]) u -> length u = length utf8 -> iso8859_to_utf8 1 (cs ++ [c]) utf8 = UB.
Proof.
  intros cs c utf8 u G Hc U L. apply utf8_overflow; try assumption. rewrite <- L. f_equal.
  assert (G' : Forall graphic (cs ++ [c])) by (apply Forall_app; split; [assumption|constructor; [unfold graphic; lia|constructor]]).
  revert G' U. generalize (cs ++ [c]). clear. intros cs G U.
  symmetry. induction U as [|c l cs ls Hc Hs IH]; [reflexivity|]. inversion G; subst. cbn [flat_map].
  rewrite IH by assumption. f_equal. unfold enc1. inversion Hc; subst.
  - destruct (Z.ltb_spec c 128); [reflexivity|lia].
  - destruct (Z.ltb_spec (hi * 64 + lo) 128); [lia|]. f_equal; [lia|f_equal; lia].
Qed.
Print Assumptions C48_utf8_overflow.
(** C48.  True for buffers of more than twice the size of the text (as for the
    application display name: 16 characters, 33 octets), and for ASCII text
    and any buffer.  Missing: other sizes. *)
Theorem C48_utf8_bounds_partial : forall cp iso utf8, bytes iso ->
  (2 * length iso < length utf8)%nat \/ (Forall (fun c => 0 <= c < 0x80) iso /\ cp = 1) ->
  exists r b, iso8859_to_utf8 cp iso utf8 = Ret (r, b) /\ length b = length utf8.
Proof.
  intros cp iso utf8 B [L|[A ->]]; [now apply utf8_safe|].
  unfold iso8859_to_utf8. destruct ((length iso =? 0)%nat || (length utf8 =? 0)%nat)%bool eqn:E0; [eauto|].
  rewrite wr_Ret by lia. cbn [bind iso8859_is_supported Z.eqb Pos.eqb negb].
  destruct (utf8_ascii_safe iso A (upd utf8 0 0) 0) as (r & b & E & Lb); [rewrite upd_length; lia|].
  exists r, b. rewrite upd_length in Lb. auto.
Qed.
Print Assumptions C48_utf8_bounds_partial.
Example C48_ex : iso8859_to_utf8 1 [0x41; 0xE9; 0xE9; 0x42] (repeat 7 4) = Ret (0, [0x41; 0xC3; 0xA9; 0]) /\
  iso8859_to_utf8 1 [0x41; 0xE9; 0xE9; 0x42] (repeat 7 5) = UB.
Proof. vm_compute; auto. Qed.
