(** Lemmas about the vocabulary of [Base]. *)
From Verif Require Import Base.
Ltac Zify.zify_post_hook ::= Z.div_mod_to_equations.
Ltac Zify.zify_pre_hook ::= unfold is_byte, Zlen in *.

Lemma bind_Ret_inv {A B} (m : out A) (k : A -> out B) v :
  bind m k = Ret v -> exists x, m = Ret x /\ k x = Ret v.
Proof. destruct m; simpl; intros; try discriminate; eauto. Qed.

Lemma bind_UB_inv {A B} (m : out A) (k : A -> out B) :
  bind m k = UB -> m = UB \/ exists x, m = Ret x /\ k x = UB.
Proof. destruct m; simpl; intros; try discriminate; eauto. Qed.

Lemma bind_NoFuel_inv {A B} (m : out A) (k : A -> out B) :
  bind m k = NoFuel -> m = NoFuel \/ exists x, m = Ret x /\ k x = NoFuel.
Proof. destruct m; simpl; intros; try discriminate; eauto. Qed.

Lemma bind_assoc {A B C} (m : out A) (k : A -> out B) (h : B -> out C) :
  bind (bind m k) h = bind m (fun x => bind (k x) h).
Proof. destruct m; reflexivity. Qed.

Ltac inv_ret H := injection H; clear H; intros; subst.

(** Reads *)
Lemma rd_Ret {A} (buf : list A) i b : rd buf i = Ret b <-> nth_error buf i = Some b.
Proof. unfold rd; destruct (nth_error buf i); split; congruence. Qed.

Lemma rd_Ret_lt {A} (buf : list A) i b : rd buf i = Ret b -> (i < length buf)%nat.
Proof. rewrite rd_Ret; intros H; apply nth_error_Some; congruence. Qed.

Lemma rd_total {A} (buf : list A) i : (i < length buf)%nat -> exists b, rd buf i = Ret b.
Proof.
  intros H; apply nth_error_Some in H; unfold rd.
  destruct (nth_error buf i) eqn:E; [eauto|congruence].
Qed.

Lemma rd_not_NoFuel {A} (buf : list A) i : rd buf i <> NoFuel.
Proof. unfold rd; destruct (nth_error buf i); congruence. Qed.

Lemma rd_UB {A} (buf : list A) i : rd buf i = UB <-> (length buf <= i)%nat.
Proof.
  unfold rd. destruct (nth_error buf i) eqn:E.
  - split; [congruence|]. intros. apply nth_error_None in H. congruence.
  - apply nth_error_None in E. tauto.
Qed.

Lemma rd_app_l {A} (a b : list A) i : (i < length a)%nat -> rd (a ++ b) i = rd a i.
Proof. intros; unfold rd; now rewrite nth_error_app1. Qed.

Lemma rd_app_r {A} (a b : list A) i : (length a <= i)%nat -> rd (a ++ b) i = rd b (i - length a).
Proof. intros; unfold rd; now rewrite nth_error_app2. Qed.

Lemma rd_app_mid {A} (a : list A) x b i : i = length a -> rd (a ++ x :: b) i = Ret x.
Proof. intros ->; unfold rd; rewrite nth_error_app2, Nat.sub_diag; auto. Qed.

Lemma rd_skipn {A} (l : list A) n i : rd (skipn n l) i = rd l (n + i).
Proof.
  unfold rd. revert l; induction n; intros l; simpl; auto.
  destruct l; simpl; [destruct i; auto|]. apply IHn.
Qed.

Lemma rd_In {A} (buf : list A) i b : rd buf i = Ret b -> In b buf.
Proof. rewrite rd_Ret; apply nth_error_In. Qed.

Lemma rd_byte buf i b : bytes buf -> rd buf i = Ret b -> is_byte b.
Proof. intros H R; apply rd_In in R; eapply Forall_forall; eauto. Qed.

(** Writes *)
Lemma upd_length {A} (buf : list A) i v : length (upd buf i v) = length buf.
Proof. revert i; induction buf; intros [|i]; simpl; auto. Qed.

Lemma upd_app {A} (a : list A) x b v i : i = length a -> upd (a ++ x :: b) i v = a ++ v :: b.
Proof. intros ->; induction a; simpl; congruence. Qed.

Lemma upd_split {A} (buf : list A) i v : (i < length buf)%nat ->
  upd buf i v = firstn i buf ++ v :: skipn (S i) buf.
Proof.
  revert i; induction buf; simpl; intros i H; [lia|].
  destruct i; simpl; auto. rewrite IHbuf by lia. reflexivity.
Qed.

Lemma wr_Ret {A} (buf : list A) i v : (i < length buf)%nat -> wr buf i v = Ret (upd buf i v).
Proof. intros; unfold wr; destruct (Nat.ltb_spec i (length buf)); auto; lia. Qed.

Lemma wr_inv {A} (buf : list A) i v b : wr buf i v = Ret b -> (i < length buf)%nat /\ b = upd buf i v.
Proof.
  unfold wr; destruct (Nat.ltb_spec i (length buf)); intros E; inversion E; auto.
Qed.

Lemma wr_UB {A} (buf : list A) i v : wr buf i v = UB <-> (length buf <= i)%nat.
Proof.
  unfold wr; destruct (Nat.ltb_spec i (length buf)); split; intros; try congruence; lia.
Qed.

Lemma wr_not_NoFuel {A} (buf : list A) i v : wr buf i v <> NoFuel.
Proof. unfold wr; destruct (Nat.ltb i (length buf)); congruence. Qed.

Lemma wr_app {A} (a : list A) x b v i : i = length a -> wr (a ++ x :: b) i v = Ret (a ++ v :: b).
Proof.
  intros ->. rewrite wr_Ret; [now rewrite upd_app|]. rewrite app_length; simpl; lia.
Qed.

(** Block accesses *)
Lemma sub_Ret {A} (buf : list A) off n :
  (off + n <= length buf)%nat -> sub buf off n = Ret (firstn n (skipn off buf)).
Proof. intros; unfold sub; destruct (Nat.leb_spec (off + n) (length buf)); auto; lia. Qed.

Lemma sub_inv {A} (buf : list A) off n v :
  sub buf off n = Ret v -> (off + n <= length buf)%nat /\ v = firstn n (skipn off buf).
Proof.
  unfold sub; destruct (Nat.leb_spec (off + n) (length buf)); intros E; inversion E; auto.
Qed.

Lemma sub_app {A} (a v b : list A) off n : off = length a -> n = length v ->
  sub (a ++ v ++ b) off n = Ret v.
Proof.
  intros -> ->. rewrite sub_Ret.
  - rewrite skipn_app, skipn_all, Nat.sub_diag; simpl.
    rewrite firstn_app, firstn_all, Nat.sub_diag; simpl. now rewrite app_nil_r.
  - rewrite !app_length; lia.
Qed.

Lemma sub_length {A} (buf : list A) off n v : sub buf off n = Ret v -> length v = n.
Proof.
  intros H; apply sub_inv in H; destruct H as [H ->].
  rewrite firstn_length, skipn_length. lia.
Qed.

Lemma put_Ret {A} (buf : list A) off v : (off + length v <= length buf)%nat ->
  put buf off v = Ret (firstn off buf ++ v ++ skipn (off + length v) buf).
Proof. intros; unfold put; destruct (Nat.leb_spec (off + length v) (length buf)); auto; lia. Qed.

Lemma put_inv {A} (buf : list A) off v b : put buf off v = Ret b ->
  (off + length v <= length buf)%nat /\ b = firstn off buf ++ v ++ skipn (off + length v) buf.
Proof.
  unfold put; destruct (Nat.leb_spec (off + length v) (length buf)); intros E; inversion E; auto.
Qed.

Lemma put_length {A} (buf : list A) off v b : put buf off v = Ret b -> length b = length buf.
Proof.
  intros H; apply put_inv in H; destruct H as [H ->].
  rewrite !app_length, firstn_length, skipn_length. lia.
Qed.

(** Octets and sweeps *)
Lemma all_bytes_In b : is_byte b -> In b all_bytes.
Proof.
  intros H. unfold all_bytes. apply in_map_iff. exists (Z.to_nat b).
  unfold is_byte in H. split; [lia|]. apply in_seq. lia.
Qed.

Lemma byte_sweep (P : Z -> bool) :
  forallb P all_bytes = true -> forall b, is_byte b -> P b = true.
Proof. intros H b Hb. rewrite forallb_forall in H. apply H, all_bytes_In, Hb. Qed.

Lemma byte_sweep2 (P : Z -> Z -> bool) :
  forallb (fun a => forallb (P a) all_bytes) all_bytes = true ->
  forall a b, is_byte a -> is_byte b -> P a b = true.
Proof.
  intros H a b Ha Hb.
  apply (byte_sweep (P a)); auto.
  apply (byte_sweep (fun a => forallb (P a) all_bytes) H a Ha).
Qed.

Lemma bytes_app a b : bytes (a ++ b) <-> bytes a /\ bytes b.
Proof. apply Forall_app. Qed.

Lemma bytes_skipn n l : bytes l -> bytes (skipn n l).
Proof.
  unfold bytes; rewrite <- (firstn_skipn n l) at 1; rewrite Forall_app; tauto.
Qed.

Lemma bytes_firstn n l : bytes l -> bytes (firstn n l).
Proof.
  unfold bytes; rewrite <- (firstn_skipn n l) at 1; rewrite Forall_app; tauto.
Qed.

(** Integer conversions *)
Lemma u8_id x : 0 <= x < 256 -> u8 x = x.
Proof. unfold u8; intros; apply Z.mod_small; lia. Qed.
Lemma u32_id x : 0 <= x < 4294967296 -> u32 x = x.
Proof. unfold u32; intros; apply Z.mod_small; lia. Qed.
Lemma u64_id x : 0 <= x < 18446744073709551616 -> u64 x = x.
Proof. unfold u64; intros; apply Z.mod_small; lia. Qed.
Lemma to_int_id x : 0 <= x < 2147483648 -> to_int x = x.
Proof. unfold to_int; intros. rewrite Z.mod_small by lia. destruct (Z.ltb_spec x 2147483648); lia. Qed.
Lemma u8_byte x : is_byte (u8 x).
Proof. unfold u8, is_byte; lia. Qed.
Lemma u32_range x : 0 <= u32 x < 4294967296.
Proof. unfold u32; lia. Qed.

(** [x << k | b] with [b < 2^k] *)
Lemma shiftl_land_low x b k : 0 <= k -> 0 <= b < 2 ^ k -> Z.land (Z.shiftl x k) b = 0.
Proof.
  intros Hk Hb. apply Z.bits_inj'. intros n Hn. rewrite Z.land_spec, Z.bits_0.
  destruct (Z.ltb_spec n k).
  - rewrite Z.shiftl_spec_low; auto.
  - destruct (Z.eq_dec b 0) as [->|Hb0]; [now rewrite Z.bits_0, andb_false_r|].
    rewrite (Z.bits_above_log2 b n); [now rewrite andb_false_r|lia|].
    apply Z.log2_lt_pow2; try lia. eapply Z.lt_le_trans; [apply Hb|].
    apply Z.pow_le_mono_r; lia.
Qed.

Lemma lor_shiftl x b k : 0 <= k -> 0 <= b < 2 ^ k -> Z.lor (Z.shiftl x k) b = x * 2 ^ k + b.
Proof.
  intros Hk Hb. rewrite <- Z.shiftl_mul_pow2 by lia.
  rewrite Z.add_nocarry_lxor, Z.lxor_lor; auto using shiftl_land_low.
Qed.

Lemma Zlen_app {A} (a b : list A) : Zlen (a ++ b) = Zlen a + Zlen b.
Proof. unfold Zlen; rewrite app_length; lia. Qed.
Lemma Zlen_nonneg {A} (a : list A) : 0 <= Zlen a.
Proof. unfold Zlen; lia. Qed.

(** Fuel: [fle a b] says that [b] is the result of the same computation with at
    least as much fuel. *)
Definition fle {A} (a b : out A) : Prop := a = NoFuel \/ a = b.
Lemma fle_refl {A} (a : out A) : fle a a.
Proof. right; reflexivity. Qed.
Lemma fle_NoFuel {A} (a : out A) : fle NoFuel a.
Proof. left; reflexivity. Qed.
Lemma fle_bind {A B} (m m' : out A) (k k' : A -> out B) :
  fle m m' -> (forall x, fle (k x) (k' x)) -> fle (bind m k) (bind m' k').
Proof.
  intros [->| ->] Hk; [left; reflexivity|].
  destruct m'; simpl; [apply Hk| right; auto | left; auto].
Qed.
Lemma fle_eq {A} (a b : out A) : fle a b -> a <> NoFuel -> b = a.
Proof. intros [->| ->]; congruence. Qed.

Ltac fle_tac :=
  repeat first
    [ apply fle_refl | apply fle_NoFuel | assumption
    | apply fle_bind; [|intros ?]
    | match goal with
      | |- fle (match ?c with _ => _ end) (match ?c with _ => _ end) => destruct c
      end ].

(** Big-endian numbers *)
Lemma fold_left_ext_in {A B} (f g : A -> B -> A) l a :
  (forall x y, In y l -> f x y = g x y) -> fold_left f l a = fold_left g l a.
Proof.
  revert a; induction l as [|y l IH]; intros a H; simpl; auto.
  rewrite H by (left; auto). apply IH. intros; apply H; right; auto.
Qed.

Lemma firstn_length_app {A} (a b : list A) : firstn (length a) (a ++ b) = a.
Proof. rewrite firstn_app, firstn_all, Nat.sub_diag; simpl; apply app_nil_r. Qed.
Lemma skipn_length_app {A} (a b : list A) : skipn (length a) (a ++ b) = b.
Proof. rewrite skipn_app, skipn_all, Nat.sub_diag; reflexivity. Qed.
Lemma firstn_app_eq {A} n (a b : list A) : n = length a -> firstn n (a ++ b) = a.
Proof. intros ->; apply firstn_length_app. Qed.
Lemma skipn_app_eq {A} n (a b : list A) : n = length a -> skipn n (a ++ b) = b.
Proof. intros ->; apply skipn_length_app. Qed.
Lemma sub_rest {A} (buf : list A) off :
  (off <= length buf)%nat -> sub buf off (length buf - off) = Ret (skipn off buf).
Proof.
  intros H. rewrite sub_Ret by lia. f_equal.
  apply firstn_all2. rewrite skipn_length. lia.
Qed.

(** Prove [f b = true] for an octet [b] by checking all octets. *)
Ltac sweep b :=
  match goal with
  | |- ?L = true =>
    let f := eval pattern b in L in
    match f with ?P b => apply (byte_sweep P); [vm_compute; reflexivity | assumption] end
  end.
Ltac sweep2 a b :=
  match goal with
  | |- ?L = true =>
    let f := eval pattern a, b in L in
    match f with ?P a b => apply (byte_sweep2 P); [vm_compute; reflexivity | assumption | assumption] end
  end.

Lemma skipn_skipn' {A} n m (l : list A) : skipn n (skipn m l) = skipn (m + n) l.
Proof.
  revert l; induction m as [|m IH]; intros l; [reflexivity|].
  destruct l; cbn [skipn Nat.add]; [apply skipn_nil|apply IH].
Qed.
Lemma skipn_rd {A} (buf : list A) off b :
  rd buf off = Ret b -> skipn off buf = b :: skipn (S off) buf.
Proof.
  revert buf; induction off as [|off IH]; intros [|x buf] H; try discriminate H.
  - inversion H; reflexivity.
  - cbn [skipn]. apply IH. exact H.
Qed.

Lemma bytes_nil : bytes [].
Proof. constructor. Qed.
Lemma bytes_cons b l : is_byte b -> bytes l -> bytes (b :: l).
Proof. now constructor. Qed.
Lemma bytes_one b : is_byte b -> bytes [b].
Proof. auto using bytes_nil, bytes_cons. Qed.
Lemma bytes_app_intro a b : bytes a -> bytes b -> bytes (a ++ b).
Proof. rewrite bytes_app; auto. Qed.
#[export] Hint Resolve bytes_nil bytes_cons bytes_app_intro bytes_skipn bytes_firstn : core.

Lemma firstn_snoc {A} (l : list A) : forall i x, nth_error l i = Some x ->
  firstn (S i) l = firstn i l ++ [x].
Proof.
  induction l as [|y l IH]; intros [|i] x H; try discriminate.
  - inversion H; reflexivity.
  - cbn [nth_error] in H. cbn [firstn app]. f_equal. now apply IH.
Qed.
