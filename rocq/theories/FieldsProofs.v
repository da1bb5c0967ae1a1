(** Lemmas for src/emv_fields.c. *)
From Verif Require Import Base BaseLemmas BerSpec FieldsModel FieldsSpec.

(** ** AFL *)
Lemma land3 x : Z.land x 3 = x mod 4.
Proof. change 3 with (Z.ones 2). rewrite Z.land_ones by lia. reflexivity. Qed.
Lemma land1 x : Z.land x 1 = x mod 2.
Proof. change 1 with (Z.ones 1). rewrite Z.land_ones by lia. reflexivity. Qed.

Lemma afl_byte0 a : is_byte a ->
  Z.land a 7 = a mod 8 /\ Z.land a 0xF8 = a / 8 * 8 /\ Z.shiftr (Z.land a 0xF8) 3 = a / 8.
Proof.
  intro Ha. pose proof (byte_sweep (fun a => (Z.land a 7 =? a mod 8) && (Z.land a 0xF8 =? a / 8 * 8)
     && (Z.shiftr (Z.land a 0xF8) 3 =? a / 8))%bool ltac:(vm_compute; reflexivity) a Ha) as H.
  cbv beta in H. lia.
Qed.

(** One entry. *)
Lemma afl_next_spec itr : bytes itr ->
  (itr = [] /\ afl_itr_next itr = Ret (0, None, itr)) \/
  (exists e rest, itr = afl_octets e ++ rest /\ afl_valid e /\ Zlen rest mod 4 = 0 /\
     afl_itr_next itr = Ret (4, Some e, rest)) \/
  (itr <> [] /\ (Zlen itr mod 4 = 0 -> ~ exists e, afl_valid e /\ firstn 4 itr = afl_octets e) /\
     exists r, r < 0 /\ afl_itr_next itr = Ret (r, None, itr)).
Proof.
  intro B. destruct itr as [|a0 itr]; [left; auto|right].
  unfold afl_itr_next. cbn [length Nat.eqb]. rewrite land3.
  destruct (Z.eqb_spec (Zlen (a0 :: itr) mod 4) 0) as [E|E]; cbn [negb].
  2: { right. split; [discriminate|]. split; [intro; contradiction|]. exists (-2). split; [lia|reflexivity]. }
  destruct itr as [|a1 [|a2 [|a3 rest]]]; try (unfold Zlen in E; cbn [length] in E; lia).
  cbn [rd nth_error bind].
  pose proof B as B'. apply Forall_cons_iff in B' as [Ba0 B']. apply Forall_cons_iff in B' as [Ba1 B'].
  apply Forall_cons_iff in B' as [Ba2 B']. apply Forall_cons_iff in B' as [Ba3 _].
  destruct (afl_byte0 a0 Ba0) as (R1 & R2 & R3). rewrite R1, R3, R2. clear R1 R2 R3.
  cbn [skipn firstn].
  assert (Bad : forall r, r < 0 -> ~ (a0 mod 8 = 0 /\ 1 <= a0/8 <= 30 /\ 1 <= a1 <= a2 /\ a3 <= a2 - a1 + 1) ->
     (a0 :: a1 :: a2 :: a3 :: rest <> [] /\ (Zlen (a0 :: a1 :: a2 :: a3 :: rest) mod 4 = 0 -> ~ exists e, afl_valid e /\ [a0;a1;a2;a3] = afl_octets e) /\
     exists r', r' < 0 /\ Ret (r, @None afl_entry, a0 :: a1 :: a2 :: a3 :: rest) = Ret (r', None, a0 :: a1 :: a2 :: a3 :: rest))).
  { intros r Hr Hn. split; [discriminate|]. split; [|eauto]. intros _ (e & (V1 & V2 & V3 & V4) & Ee).
    unfold afl_octets in Ee. injection Ee as E0 E1 E2 E3. apply Hn. lia. }
  destruct (Z.eqb_spec (a0 mod 8) 0); cbn [negb]; [|right; apply Bad; lia].
  destruct (Z.eqb_spec (a0/8*8) 0); cbn [orb]; [right; apply Bad; lia|].
  destruct (Z.eqb_spec (a0/8*8) 0xF8); [right; apply Bad; lia|].
  destruct (Z.eqb_spec a1 0); [right; apply Bad; lia|].
  destruct (Z.ltb_spec a2 a1); [right; apply Bad; lia|].
  destruct (a3 >? a2 - a1 + 1) eqn:E3; [right; apply Bad; lia|].
  left. exists (mkAfl (a0/8) a1 a2 a3), rest. split; [|split; [|split]].
  - unfold afl_octets. cbn. f_equal. lia.
  - unfold afl_valid. cbn [a_sfi a_first a_last a_oda]. lia.
  - unfold Zlen in *. cbn [length] in E. lia.
  - reflexivity.
Qed.

(** All octet strings. *)
Lemma afl_all_any fuel : forall itr, bytes itr -> (length itr < fuel)%nat ->
  exists es rest r, afl_all fuel itr = Ret (es, r) /\ itr = flat_map afl_octets es ++ rest /\
    Forall afl_valid es /\ r <= 0 /\ (r = 0 <-> rest = []) /\
    (r <> 0 -> Zlen rest mod 4 = 0 -> ~ exists e, afl_valid e /\ firstn 4 rest = afl_octets e).
Proof.
  induction fuel as [|fuel IH]; intros itr B Hl; [lia|]. cbn [afl_all].
  destruct (afl_next_spec itr B) as [[E1 E2]|[(e & rest & E1 & V & _ & E2)|(E1 & V & r & Hr & E2)]]; rewrite E2; cbn [bind].
  - exists [], itr, 0. split; [reflexivity|]. split; [reflexivity|]. split; [constructor|]. split; [lia|].
    split; [tauto|]. intro. contradiction.
  - subst itr. apply bytes_app in B as [_ B]. destruct (IH rest B) as (es & rest' & r & Q1 & Q2 & Q3 & Q4 & Q5 & Q6).
    { rewrite app_length in Hl. unfold afl_octets in Hl. cbn [length] in Hl. lia. }
    rewrite Q1. cbn [bind]. exists (e :: es), rest', r. split; [reflexivity|]. split.
    { cbn [flat_map]. rewrite <- app_assoc. now rewrite <- Q2. }
    split; [now constructor|]. auto.
  - exists [], itr, r. split; [reflexivity|]. split; [reflexivity|]. split; [constructor|]. split; [lia|].
    split; [split; [lia|contradiction]|]. intros _. exact V.
Qed.

Lemma app_len_inj {A} (a a' b b' : list A) : length a = length a' -> a ++ b = a' ++ b' -> a = a' /\ b = b'.
Proof.
  revert a'. induction a as [|x a IH]; intros [|y a'] L E; cbn in L, E; try lia; [auto|].
  injection E as -> E. apply IH in E; [|lia]. destruct E; subst; auto.
Qed.
Lemma afl_octets_bytes e : afl_valid e -> bytes (afl_octets e).
Proof. intros (V1 & V2 & V3 & V4). unfold afl_octets. repeat apply bytes_cons; try lia. constructor. Qed.
Lemma afl_flat_bytes es : Forall afl_valid es -> bytes (flat_map afl_octets es).
Proof. induction 1; cbn [flat_map]; [constructor|]. apply bytes_app_intro; [now apply afl_octets_bytes|assumption]. Qed.
Lemma afl_flat_len es : length (flat_map afl_octets es) = (4 * length es)%nat.
Proof. induction es as [|e es IH]; [reflexivity|]. cbn [flat_map length]. rewrite app_length, IH. cbn. lia. Qed.

Lemma afl_octets_inj e e' : afl_octets e = afl_octets e' -> e = e'.
Proof.
  destruct e, e'. unfold afl_octets. cbn. intro H. injection H as H1 H2 H3 H4. subst.
  f_equal. lia.
Qed.

(** The encoding of valid entries. *)
Lemma afl_all_valid es : Forall afl_valid es -> forall fuel, (4 * length es < fuel)%nat ->
  afl_all fuel (flat_map afl_octets es) = Ret (es, 0).
Proof.
  induction 1 as [|e es V Vs IH]; intros fuel Hf; (destruct fuel as [|fuel]; [lia|]); cbn [afl_all].
  - reflexivity.
  - assert (B : bytes (flat_map afl_octets (e :: es))) by (apply afl_flat_bytes; now constructor).
    destruct (afl_next_spec _ B) as [[E1 E2]|[(e' & rest & E1 & V' & _ & E2)|(E1 & V' & r & Hr & E2)]].
    + cbn in E1. discriminate.
    + rewrite E2. cbn [bind]. cbn [flat_map] in E1.
      assert (E : afl_octets e = afl_octets e' /\ flat_map afl_octets es = rest).
      { apply app_len_inj in E1; [tauto|reflexivity]. }
      destruct E as [Ee Er]. apply afl_octets_inj in Ee. subst. rewrite IH; [reflexivity|].
      cbn [length] in Hf. lia.
    + exfalso. apply V'.
      * unfold Zlen. rewrite afl_flat_len. cbn [length]. lia.
      * exists e. split; [assumption|]. cbn [flat_map]. reflexivity.
Qed.

Lemma afl_init_spec afl : (fst (afl_itr_init afl) = 0 <-> (1 <= Zlen afl <= 252 /\ Zlen afl mod 4 = 0)) /\
  (fst (afl_itr_init afl) = 0 -> snd (afl_itr_init afl) = Some afl).
Proof.
  unfold afl_itr_init. rewrite land3. pose proof (Zlen_nonneg afl).
  destruct (Z.eqb_spec (Zlen afl) 0) as [E0|E0]; [cbn [fst snd]; split; [split; [lia|lia]|discriminate]|].
  destruct (Z.eqb_spec (Zlen afl mod 4) 0) as [E1|E1]; cbn [negb]; [|cbn [fst snd]; split; [split; [lia|lia]|discriminate]].
  destruct (Zlen afl >? 252) eqn:E2; cbn [fst snd]; split; try (split; lia); auto; discriminate.
Qed.

(** ** CVM list *)
Lemma be_load4 a b c d : is_byte a -> is_byte b -> is_byte c -> is_byte d ->
  be_load [a;b;c;d] 0 = a * 16777216 + b * 65536 + c * 256 + d.
Proof.
  intros Ha Hb Hc Hd. cbn [be_load].
  assert (Step : forall x y, 0 <= x < 16777216 -> is_byte y -> Z.lor (u32 (Z.shiftl x 8)) y = x * 256 + y).
  { intros x y Hx Hy. assert (Es : Z.shiftl x 8 = x * 256) by (rewrite Z.shiftl_mul_pow2 by lia; reflexivity).
    rewrite u32_id by lia. rewrite lor_shiftl by (cbn; lia). reflexivity. }
  change (Z.lor (u32 (Z.shiftl 0 8)) a) with a.
  rewrite (Step a b), (Step _ c), (Step _ d) by lia. lia.
Qed.

Lemma cvm_init_spec l : bytes l ->
  (exists r, cvmlist_itr_init l = Ret (r, None) /\ r <> 0 /\ (Zlen l mod 2 <> 0 \/ Zlen l < 10 \/ 252 < Zlen l)) \/
  (exists x y rules, l = x ++ y ++ rules /\ length x = 4%nat /\ length y = 4%nat /\
     Zlen l mod 2 = 0 /\ 10 <= Zlen l <= 252 /\
     cvmlist_itr_init l = Ret (0, Some (be x, be y, rules))).
Proof.
  intro B. unfold cvmlist_itr_init. rewrite !land1. pose proof (Zlen_nonneg l).
  destruct (Z.eqb_spec (Zlen l) 0) as [E0|E0]; [left; exists (-1); split; [reflexivity|lia]|].
  destruct (Z.eqb_spec (Zlen l mod 2) 0) as [E1|E1]; cbn [negb]; [|left; exists 1; split; [reflexivity|lia]].
  destruct (Z.ltb_spec (Zlen l) 10) as [E2|E2]; [left; exists 2; split; [reflexivity|lia]|].
  destruct (Z.eqb_spec ((Zlen l - 8) mod 2) 0) as [E3|E3]; cbn [negb]; [|left; exists 3; split; [reflexivity|lia]].
  destruct (Zlen l >? 252) eqn:E4; [left; exists 4; split; [reflexivity|lia]|].
  right. destruct l as [|a [|b [|c [|d [|e [|f [|g [|h rules]]]]]]]]; try (unfold Zlen in E2; cbn [length] in E2; lia).
  exists [a;b;c;d], [e;f;g;h], rules. split; [reflexivity|]. split; [reflexivity|]. split; [reflexivity|].
  split; [assumption|]. split; [lia|].
  unfold sub. replace (0 + 4 <=? length (a :: b :: c :: d :: e :: f :: g :: h :: rules))%nat with true by (symmetry; apply Nat.leb_le; cbn [length]; lia).
  replace (4 + 4 <=? length (a :: b :: c :: d :: e :: f :: g :: h :: rules))%nat with true by (symmetry; apply Nat.leb_le; cbn [length]; lia).
  cbn [bind skipn firstn].
  unfold bytes in B. repeat match goal with H : Forall is_byte (_ :: _) |- _ => apply Forall_cons_iff in H as [? H] end.
  rewrite !be_load4 by assumption. unfold be. cbn [fold_left]. do 3 f_equal. f_equal. f_equal; lia.
Qed.

Lemma cvm_all_spec rules : forall fuel, (2 * length rules < fuel)%nat ->
  cvm_all fuel (flat_map (fun r => [fst r; snd r]) rules) = Ret (rules, 0).
Proof.
  induction rules as [|[a b] rules IH]; intros fuel Hf; (destruct fuel as [|fuel]; [lia|]); cbn [cvm_all].
  - reflexivity.
  - cbn [flat_map app fst snd]. unfold cvmlist_itr_next. cbn [length Nat.eqb]. rewrite land1.
    assert (E : Zlen (a :: b :: flat_map (fun r => [fst r; snd r]) rules) mod 2 = 0).
    { assert (L : length (flat_map (fun r : Z * Z => [fst r; snd r]) rules) = (2 * length rules)%nat).
      { clear. induction rules as [|r l IHl]; [reflexivity|]. cbn [flat_map app length]. lia. }
      unfold Zlen. cbn [length]. rewrite L. lia. }
    rewrite E. cbn [Z.eqb negb rd nth_error bind skipn]. rewrite IH by (cbn [length] in Hf; lia). reflexivity.
Qed.
Lemma pairs_of l : Zlen l mod 2 = 0 -> exists rules, l = flat_map (fun r : Z * Z => [fst r; snd r]) rules.
Proof.
  assert (H : forall n l, (length l <= n)%nat -> Zlen l mod 2 = 0 -> exists rules, l = flat_map (fun r : Z * Z => [fst r; snd r]) rules).
  { induction n as [|n IH]; intros [|a [|b l']] Hn E; try (exists []; reflexivity); try (cbn [length] in Hn; lia);
      try (unfold Zlen in E; cbn [length] in E; lia).
    destruct (IH l') as [rules R]; [cbn [length] in Hn; lia|unfold Zlen in *; cbn [length] in E; lia|].
    exists ((a,b) :: rules). cbn. now rewrite R. }
  intro E. eapply H; [apply le_n|assumption].
Qed.
(** Every buffer: the two amounts and the pairs after them, or an error. *)
Lemma cvm_list l : bytes l ->
  (exists r, cvmlist_itr_init l = Ret (r, None) /\ r <> 0 /\ (Zlen l mod 2 <> 0 \/ Zlen l < 10 \/ 252 < Zlen l)) \/
  (exists x y rules itr, l = x ++ y ++ flat_map (fun r => [fst r; snd r]) rules /\ length x = 4%nat /\ length y = 4%nat /\
     (1 <= length rules <= 122)%nat /\
     cvmlist_itr_init l = Ret (0, Some (be x, be y, itr)) /\ cvm_all 250 itr = Ret (rules, 0)).
Proof.
  intro B. destruct (cvm_init_spec l B) as [H|(x & y & rest & E & Lx & Ly & M & R & I)]; [now left|right].
  assert (Er : Zlen l = 8 + Zlen rest) by (rewrite E, !Zlen_app; unfold Zlen; rewrite Lx, Ly; lia).
  destruct (pairs_of rest ltac:(lia)) as [rules Hr].
  assert (L : length rest = (2 * length rules)%nat).
  { rewrite Hr. clear. induction rules as [|r l IHl]; [reflexivity|]. cbn [flat_map app length]. lia. }
  exists x, y, rules, rest. split; [now rewrite <- Hr|]. split; [assumption|]. split; [assumption|].
  split; [unfold Zlen in *; lia|]. split; [assumption|]. rewrite Hr. apply cvm_all_spec. unfold Zlen in *. lia.
Qed.

(** ** AID *)
Fixpoint prefixb (p l : list Z) : bool :=
  match p, l with
  | [], _ => true
  | x :: p', y :: l' => (y =? x) && prefixb p' l'
  | _ :: _, [] => false
  end.
Lemma prefixb_spec p : forall l, prefixb p l = true <-> starts_with p l.
Proof.
  induction p as [|x p IH]; intro l; cbn [prefixb].
  - split; [intros _; exists l; reflexivity|reflexivity].
  - destruct l as [|y l].
    + split; [discriminate|]. intros [r Hr]. discriminate.
    + rewrite andb_true_iff, IH. split.
      * intros [E [r ->]]. apply Z.eqb_eq in E. subst. exists r. reflexivity.
      * intros [r Hr]. injection Hr as -> ->. split; [apply Z.eqb_refl|exists r; reflexivity].
Qed.
Lemma list_eqb_prefix p : forall l, (length p <= length l)%nat -> list_eqb (firstn (length p) l) p = prefixb p l.
Proof.
  induction p as [|x p IH]; intros [|y l] H; cbn [length firstn list_eqb prefixb] in *; try reflexivity; try lia.
  rewrite IH by lia. reflexivity.
Qed.
Lemma prefixb_short p : forall l, (length l < length p)%nat -> prefixb p l = false.
Proof.
  induction p as [|x p IH]; intros [|y l] H; cbn [length prefixb] in *; try reflexivity; try lia.
  rewrite IH by lia. apply andb_false_r.
Qed.
Lemma aid_match_eq aid p : aid_match aid p = Ret (prefixb p aid).
Proof.
  unfold aid_match. destruct (Nat.leb_spec (length p) (length aid)).
  - rewrite sub_Ret by lia. cbn [bind skipn]. rewrite list_eqb_prefix by lia. reflexivity.
  - rewrite prefixb_short by lia. reflexivity.
Qed.
Lemma pix_match_eq aid p : (5 <= length aid)%nat -> pix_match aid p = Ret (prefixb p (skipn 5 aid)).
Proof.
  intro H5. assert (L : length (skipn 5 aid) = (length aid - 5)%nat) by apply skipn_length.
  unfold pix_match. destruct (Nat.leb_spec (5 + length p) (length aid)).
  - rewrite sub_Ret by lia. cbn [bind]. rewrite list_eqb_prefix by lia. reflexivity.
  - rewrite prefixb_short by lia. reflexivity.
Qed.

(** The same cascade without the checked reads. *)
Fixpoint pix_pure (l : list Z) (t : list (list Z * Z)) : Z :=
  match t with [] => 0 | (p, prod) :: t' => if prefixb p l then prod else pix_pure l t' end.
Lemma pix_select_eq aid t : (5 <= length aid)%nat -> pix_select aid t = Ret (pix_pure (skipn 5 aid) t).
Proof.
  intro H5. induction t as [|[p prod] t IH]; [reflexivity|]. cbn [pix_select pix_pure].
  rewrite pix_match_eq by assumption. cbn [bind]. destruct (prefixb p (skipn 5 aid)); auto.
Qed.
Lemma aid_branch_eq aid p sch t d e : (5 <= length aid)%nat ->
  aid_branch aid p sch t d e =
  if prefixb p aid then Ret (0, (sch, let q := pix_pure (skipn 5 aid) t in if q =? 0 then d else q)) else e.
Proof.
  intro H5. unfold aid_branch. rewrite aid_match_eq. cbn [bind]. destruct (prefixb p aid); [|reflexivity].
  rewrite pix_select_eq by assumption. reflexivity.
Qed.


Lemma aid_len (aid : list Z) e : (5 <= length aid <= 16)%nat ->
  (if (length aid =? 0)%nat then Ret (-1, (0, 0))
   else if ((length aid <? 5)%nat || (16 <? length aid)%nat)%bool then Ret (1, (0, 0)) else e) = e :> out (Z * (Z * Z)).
Proof.
  intro H. destruct (Nat.eqb_spec (length aid) 0); [lia|]. destruct (Nat.ltb_spec (length aid) 5); [lia|].
  destruct (Nat.ltb_spec 16 (length aid)); [lia|]. reflexivity.
Qed.

Ltac known_product :=
  match goal with
  | |- product _ 0 => fail 1
  | |- product ?l ?k =>
    let n := eval vm_compute in (Z.to_nat (k - 1)) in
    change k with (Z.of_nat n + 1); eapply product_known; [reflexivity|]; apply prefixb_spec;
    assumption || reflexivity
  end.
Ltac no_product :=
  let p := fresh in let Hp := fresh in let Hq := fresh in
  apply product_unknown; intros p Hp Hq; apply prefixb_spec in Hq; cbn [product_prefixes In] in Hp;
  repeat (destruct Hp as [<-|Hp]; [first [discriminate Hq | match goal with E : prefixb _ _ = false |- _ => exact (Bool.diff_true_false (eq_trans (eq_sym Hq) E)) end]|]); destruct Hp.

Lemma aid_scheme aid p s : (5 <= length aid <= 16)%nat -> In (p, s) schemes -> starts_with p aid ->
  exists prod, product aid prod /\
    aid_get_info aid = Ret (if s =? SCHEME_JCB then (-1, (s, 0)) else (0, (s, prod))).
Proof.
  intros L Hin [r Hr]. unfold aid_get_info. rewrite aid_len by assumption.
  rewrite !aid_branch_eq by lia. rewrite aid_match_eq. cbn [bind].
  rewrite !aid_branch_eq by lia.
  subst aid. clear L.
  cbn [In schemes] in Hin.
  repeat (destruct Hin as [Hin|Hin]; [injection Hin as <- <-|]); [..|destruct Hin].
  all: cbn [app prefixb Z.eqb Pos.eqb andb skipn].
  all: unfold SCHEME_JCB, SCHEME_VISA, SCHEME_MASTERCARD, SCHEME_AMEX, SCHEME_DISCOVER, SCHEME_CB, SCHEME_DANKORT, SCHEME_UNIONPAY,
      SCHEME_GIMUEMOA, SCHEME_DK, SCHEME_VERVE, SCHEME_EFTPOS, SCHEME_RUPAY, SCHEME_MIR, SCHEME_MEEZA; cbn [Z.eqb Pos.eqb pix_pure]; cbv zeta.
  all: repeat (match goal with |- context [if prefixb ?p ?l then _ else _] => destruct (prefixb p l) eqn:?  end; cbn [Z.eqb Pos.eqb]).
  all: lazymatch goal with |- exists prod, _ /\ Ret (_, (_, ?x)) = _ => exists x end.
  all: split; [first [known_product|no_product]|reflexivity].
Qed.

Lemma aid_unknown aid : (5 <= length aid <= 16)%nat -> (forall p s, In (p, s) schemes -> ~ starts_with p aid) ->
  aid_get_info aid = Ret (-1, (0, 0)).
Proof.
  intros L N. unfold aid_get_info. rewrite aid_len by assumption.
  rewrite !aid_branch_eq by lia. rewrite aid_match_eq. cbn [bind]. rewrite !aid_branch_eq by lia.
  assert (F : forall p s, In (p, s) schemes -> prefixb p aid = false).
  { intros p s Hin. destruct (prefixb p aid) eqn:E; [|reflexivity]. apply prefixb_spec in E. exfalso. eapply N; eauto. }
  repeat match goal with |- context [if prefixb ?p aid then _ else _] =>
    rewrite (F p _ ltac:(cbn [In schemes]; repeat (first [left; reflexivity|right]))) end.
  reflexivity.
Qed.

Lemma aid_length aid : ~ (5 <= length aid <= 16)%nat -> exists r, r <> 0 /\ aid_get_info aid = Ret (r, (0, 0)).
Proof.
  intro H. unfold aid_get_info. destruct (Nat.eqb_spec (length aid) 0); [exists (-1); split; [lia|reflexivity]|].
  exists 1. split; [lia|]. destruct (Nat.ltb_spec (length aid) 5); [reflexivity|].
  destruct (Nat.ltb_spec 16 (length aid)); [reflexivity|lia].
Qed.

(** ** IAD *)
Lemma iad_bits b : is_byte b ->
  Z.land b 0xF0 = b / 16 * 16 /\ Z.land b 0x0F = b mod 16 /\ Z.shiftr (Z.land b 0xF0) 4 = b / 16 /\
  Z.land b 8 = (b / 8) mod 2 * 8 /\ Z.land b 2 = (b / 2) mod 2 * 2.
Proof.
  intro Hb. pose proof (byte_sweep (fun b => (Z.land b 0xF0 =? b / 16 * 16) && (Z.land b 0x0F =? b mod 16)
   && (Z.shiftr (Z.land b 0xF0) 4 =? b / 16) && (Z.land b 8 =? (b / 8) mod 2 * 8) && (Z.land b 2 =? (b / 2) mod 2 * 2))%bool
   ltac:(vm_compute; reflexivity) b Hb) as H. cbv beta in H. lia.
Qed.
Lemma rd_nth l i : (i < length l)%nat -> rd l i = Ret (nth i l 0).
Proof. intro H. apply rd_Ret. now apply nth_error_nth'. Qed.
Lemma nth_byte l i : bytes l -> is_byte (nth i l 0).
Proof.
  intro B. destruct (Nat.ltb_spec i (length l)).
  - eapply Forall_forall; [exact B|]. now apply nth_In.
  - rewrite nth_overflow by lia. lia.
Qed.

Lemma iad_exact iad : bytes iad -> exists r, iad_get_format iad = Ret r /\
  (forall f, iad_is f iad -> f <= 3 \/ (forall g, g <= 3 -> ~ iad_is g iad) -> r = f) /\
  (iad_bad_vsdc iad -> (forall g, ~ iad_is g iad) -> r = IAD_INVALID) /\
  (iad <> [] -> ~ iad_bad_vsdc iad -> (forall g, ~ iad_is g iad) -> r = IAD_UNKNOWN) /\
  (iad = [] -> r = IAD_INVALID).
Proof.
  intro B. destruct iad as [|x0 iad'] eqn:Ei.
  { exists (-1). split; [reflexivity|]. split; [|split; [|split]]; auto; try contradiction.
    intros f Hf. inversion Hf; subst; cbn in *; lia. }
  rewrite <- Ei in *. assert (L1 : (1 <= length iad)%nat) by (rewrite Ei; cbn; lia).
  assert (NE : iad <> []) by (rewrite Ei; discriminate). clear Ei x0 iad'.
  pose proof (nth_byte iad 0 B) as B0. pose proof (nth_byte iad 1 B) as B1. pose proof (nth_byte iad 2 B) as B2.
  pose proof (nth_byte iad 8 B) as B8. pose proof (nth_byte iad 3 B) as B3. pose proof (nth_byte iad 16 B) as B16.
  unfold iad_get_format. set (n := length iad) in *.
  assert (En : Zlen iad = Z.of_nat n) by reflexivity. rewrite En. clear En.
  destruct (Z.eqb_spec (Z.of_nat n) 0); [lia|].
  (* decide the formats in arithmetic *)
  set (b0 := nth 0 iad 0) in *. set (b1 := nth 1 iad 0) in *. set (b2 := nth 2 iad 0) in *. set (b3 := nth 3 iad 0) in *.
  set (b8 := nth 8 iad 0) in *. set (b16 := nth 16 iad 0) in *.
  assert (R : forall i, (i < n)%nat -> rd iad i = Ret (nth i iad 0)) by (intros; now apply rd_nth).
  assert (Hccd : iad_is IAD_CCD iad <-> (n = 32%nat /\ b0 = 0x0F /\ (b1 = 0xA5 \/ b1 = 0xA6) /\ b16 = 0x0F)).
  { split; [intro H; inversion H; auto|]. intros (? & ? & ? & ?). now constructor. }
  assert (Hm : In b1 [0x10; 0x11; 0x14; 0x15] <-> (b1 / 16 = 1 /\ (b1 / 8) mod 2 = 0 /\ (b1 / 2) mod 2 = 0)).
  { cbn [In]. lia. }
  assert (Hm4 : iad_is IAD_MCHIP4 iad <-> (n = 18%nat /\ In b1 [0x10; 0x11; 0x14; 0x15])).
  { split; [intro H; inversion H; auto|]. intros (? & ?). now constructor. }
  assert (Hma : iad_is IAD_MCHIP_ADVANCE iad <-> (In n [20; 26; 28]%nat /\ In b1 [0x10; 0x11; 0x14; 0x15])).
  { split; [intro H; inversion H; auto|]. intros (? & ?). now constructor. }
  assert (Hv0 : iad_is IAD_VSDC_0 iad <-> ((7 <= n)%nat /\ b0 = 6 /\ b3 = 3 /\ b2 / 16 = 0)).
  { split; [intro H; inversion H; auto|]. intros (? & ? & ? & ?). now constructor. }
  assert (Hv1 : iad_is IAD_VSDC_1 iad <-> ((7 <= n)%nat /\ b0 = 6 /\ b3 = 3 /\ b2 / 16 = 1)).
  { split; [intro H; inversion H; auto|]. intros (? & ? & ? & ?). now constructor. }
  assert (Hv3 : iad_is IAD_VSDC_3 iad <-> ((7 <= n)%nat /\ b0 = 6 /\ b3 = 3 /\ b2 / 16 = 3)).
  { split; [intro H; inversion H; auto|]. intros (? & ? & ? & ?). now constructor. }
  assert (Hv2 : iad_is IAD_VSDC_2 iad <-> (n = 32%nat /\ b0 = 0x1F /\ b8 / 16 = 0 /\ b1 / 16 = 2)).
  { split; [intro H; inversion H; auto|]. intros (? & ? & ? & ?). now constructor. }
  assert (Hv4 : iad_is IAD_VSDC_4 iad <-> (n = 32%nat /\ b0 = 0x1F /\ b8 / 16 = 0 /\ b1 / 16 = 4)).
  { split; [intro H; inversion H; auto|]. intros (? & ? & ? & ?). now constructor. }
  assert (Hbad : iad_bad_vsdc iad <-> (((7 <= n)%nat /\ b0 = 6 /\ b3 = 3 /\ ~ In (b2 / 16) [0; 1; 3]) \/
     (n = 32%nat /\ b0 = 0x1F /\ b8 / 16 = 0 /\ ~ In (b1 / 16) [2; 4]))) by reflexivity.
  rewrite Hm in Hm4, Hma. clear Hm.
  assert (Hdom : forall f, iad_is f iad -> In f [IAD_CCD; IAD_MCHIP4; IAD_MCHIP_ADVANCE; IAD_VSDC_0; IAD_VSDC_1; IAD_VSDC_2; IAD_VSDC_3; IAD_VSDC_4]).
  { intros f Hf. inversion Hf; subst; cbn; auto 10. }
  destruct (iad_bits b0 B0) as (_ & _ & _ & _ & _).
  destruct (iad_bits b1 B1) as (P1 & P2 & P3 & P4 & P5). destruct (iad_bits b2 B2) as (_ & _ & S3 & _ & _).
  destruct (iad_bits b8 B8) as (U1 & _ & _ & _ & _).
  assert (R0 : (0 < n)%nat -> rd iad 0 = Ret b0) by (intro; apply R; lia).
  assert (R1 : (1 < n)%nat -> rd iad 1 = Ret b1) by (intro; apply R; lia).
  assert (R2 : (2 < n)%nat -> rd iad 2 = Ret b2) by (intro; apply R; lia).
  assert (R3 : (3 < n)%nat -> rd iad 3 = Ret b3) by (intro; apply R; lia).
  assert (R8 : (8 < n)%nat -> rd iad 8 = Ret b8) by (intro; apply R; lia).
  assert (R16 : (16 < n)%nat -> rd iad 16 = Ret b16) by (intro; apply R; lia).
  clear R. clearbody b0 b1 b2 b3 b8 b16 n.
  assert (Fin : forall r, 
     ((n = 32%nat /\ b0 = 0x0F /\ (b1 = 0xA5 \/ b1 = 0xA6) /\ b16 = 0x0F) -> r = IAD_CCD) ->
     ((n = 18%nat /\ b1 / 16 = 1 /\ (b1 / 8) mod 2 = 0 /\ (b1 / 2) mod 2 = 0) -> r = IAD_MCHIP4) ->
     ((n = 20 \/ n = 26 \/ n = 28)%nat /\ (b1 / 16 = 1 /\ (b1 / 8) mod 2 = 0 /\ (b1 / 2) mod 2 = 0) -> r = IAD_MCHIP_ADVANCE) ->
     (~ ((n = 18 \/ n = 20 \/ n = 26 \/ n = 28)%nat /\ b1 / 16 = 1 /\ (b1 / 8) mod 2 = 0 /\ (b1 / 2) mod 2 = 0) ->
      (7 <= n)%nat /\ b0 = 6 /\ b3 = 3 -> r = if b2 / 16 =? 0 then IAD_VSDC_0 else if b2 / 16 =? 1 then IAD_VSDC_1
           else if b2 / 16 =? 3 then IAD_VSDC_3 else IAD_INVALID) ->
     (n = 32%nat /\ b0 = 0x1F /\ b8 / 16 = 0 -> r = if b1 / 16 =? 2 then IAD_VSDC_2 else if b1 / 16 =? 4 then IAD_VSDC_4 else IAD_INVALID) ->
     (~ (n = 32%nat /\ b0 = 0x0F /\ (b1 = 0xA5 \/ b1 = 0xA6) /\ b16 = 0x0F) ->
      ~ ((n = 18 \/ n = 20 \/ n = 26 \/ n = 28)%nat /\ b1 / 16 = 1 /\ (b1 / 8) mod 2 = 0 /\ (b1 / 2) mod 2 = 0) ->
      ~ ((7 <= n)%nat /\ b0 = 6 /\ b3 = 3) -> ~ (n = 32%nat /\ b0 = 0x1F /\ b8 / 16 = 0) -> r = IAD_UNKNOWN) ->
     (forall f, iad_is f iad -> f <= 3 \/ (forall g, g <= 3 -> ~ iad_is g iad) -> r = f) /\
     (iad_bad_vsdc iad -> (forall g, ~ iad_is g iad) -> r = IAD_INVALID) /\
     (iad <> [] -> ~ iad_bad_vsdc iad -> (forall g, ~ iad_is g iad) -> r = IAD_UNKNOWN) /\
     (iad = [] -> r = IAD_INVALID)).
  { clear R0 R1 R2 R3 R8 R16 P1 P2 P3 P4 P5 S3 U1 B0 B1 B2 B3 B8 B16. intros r F1 F2 F3 F4 F5 F6.
    set (x2 := b2 / 16) in *. clearbody x2. set (x8 := b8 / 16) in *. clearbody x8.
    set (M := (b1 / 16 = 1 /\ _ = 0 /\ _ = 0)) in *. clearbody M. set (x1 := b1 / 16) in *. clearbody x1.
    set (C := (n = 32%nat /\ b0 = 15 /\ _)) in *. clearbody C.
    unfold IAD_CCD, IAD_MCHIP4, IAD_MCHIP_ADVANCE, IAD_VSDC_0, IAD_VSDC_1, IAD_VSDC_2, IAD_VSDC_3, IAD_VSDC_4, IAD_INVALID, IAD_UNKNOWN in *.
    split; [|split; [|split; [|contradiction]]].
    - intros f Hf Hp. pose proof (Hdom f Hf) as D. cbn [In] in D.
      assert (Q : f <= 3 \/ (~ iad_is 1 iad /\ ~ iad_is 2 iad /\ ~ iad_is 3 iad)).
      { destruct Hp as [Hp|Hp]; [now left|right]. repeat split; apply Hp; lia. }
      cbn [In] in Hma. rewrite Hccd, Hm4, Hma in Q.
      repeat (destruct D as [D|D]; [subst f|]); [..|destruct D].
      + apply Hccd in Hf. apply F1. exact Hf.
      + apply Hm4 in Hf. apply F2. exact Hf.
      + apply Hma in Hf. apply F3. destruct Hf as [Hf HM]. split; [lia|exact HM].
      + apply Hv0 in Hf. rewrite F4 by (solve [clear -N2 N3; intuition lia | clear -Q; intuition lia | clear -Hf; intuition lia | clear -Hb; intuition lia]). destruct (Z.eqb_spec x2 0); lia.
      + apply Hv1 in Hf. rewrite F4 by (solve [clear -N2 N3; intuition lia | clear -Q; intuition lia | clear -Hf; intuition lia | clear -Hb; intuition lia]). destruct (Z.eqb_spec x2 0); [lia|]. destruct (Z.eqb_spec x2 1); lia.
      + apply Hv2 in Hf. rewrite F5 by (solve [clear -Hf; intuition lia | clear -Hb; intuition lia]). destruct (Z.eqb_spec x1 2); lia.
      + apply Hv3 in Hf. rewrite F4 by (solve [clear -N2 N3; intuition lia | clear -Q; intuition lia | clear -Hf; intuition lia | clear -Hb; intuition lia]). destruct (Z.eqb_spec x2 0); [lia|]. destruct (Z.eqb_spec x2 1); [lia|].
        destruct (Z.eqb_spec x2 3); lia.
      + apply Hv4 in Hf. rewrite F5 by (solve [clear -Hf; intuition lia | clear -Hb; intuition lia]). destruct (Z.eqb_spec x1 2); [lia|]. destruct (Z.eqb_spec x1 4); lia.
    - intros Hb Hn. pose proof (Hn 2) as N2. pose proof (Hn 3) as N3. rewrite Hm4 in N2. rewrite Hma in N3. cbn [In] in N3.
      apply Hbad in Hb. cbn [In] in Hb. destruct Hb as [Hb|Hb].
      + rewrite F4 by (solve [clear -N2 N3; intuition lia | clear -Q; intuition lia | clear -Hf; intuition lia | clear -Hb; intuition lia]). destruct (Z.eqb_spec x2 0); [lia|]. destruct (Z.eqb_spec x2 1); [lia|].
        destruct (Z.eqb_spec x2 3); lia.
      + rewrite F5 by (solve [clear -Hf; intuition lia | clear -Hb; intuition lia]). destruct (Z.eqb_spec x1 2); [lia|]. destruct (Z.eqb_spec x1 4); lia.
    - intros _ Hb Hn. rewrite Hbad in Hb. cbn [In] in Hb.
      pose proof (Hn 1) as N1. pose proof (Hn 2) as N2. pose proof (Hn 3) as N3. pose proof (Hn 4) as N4.
      pose proof (Hn 5) as N5. pose proof (Hn 6) as N6. pose proof (Hn 7) as N7. pose proof (Hn 8) as N8.
      rewrite Hccd in N1. rewrite Hm4 in N2. rewrite Hma in N3. rewrite Hv0 in N4. rewrite Hv1 in N5. rewrite Hv2 in N6.
      rewrite Hv3 in N7. rewrite Hv4 in N8. cbn [In] in N3. apply F6; [exact N1|clear -N2 N3; intuition lia|clear -N4 N5 N7 Hb; lia|clear -N6 N8 Hb; lia]. }
  clear Hdom Hccd Hm4 Hma Hv0 Hv1 Hv2 Hv3 Hv4 Hbad.
  assert (Ka : forall a b, andalso (Ret a) b = if a then b else Ret false) by reflexivity.
  match goal with |- exists _, (let* _ := ?x in _) = _ /\ _ =>
    assert (K : exists c, x = Ret c /\ (c = true <-> (n = 32%nat /\ b0 = 0x0F /\ (b1 = 0xA5 \/ b1 = 0xA6) /\ b16 = 0x0F))) end.
  { clear Fin. rewrite !Ka. destruct (Z.eqb_spec (Z.of_nat n) 32); [|exists false; split; [reflexivity|]; split; [discriminate|lia]].
    rewrite R0, R1, R16 by lia. cbn [bind]. rewrite !Ka, P1, P2. clear -B1 e.
    eexists; split.
    - instantiate (1 := ((b0 =? 15) && ((b1 / 16 * 16 =? 160) && (((b1 mod 16 =? 5) || (b1 mod 16 =? 6)) && (b16 =? 15))))%bool).
      destruct (b0 =? 15), (b1 / 16 * 16 =? 160), (b1 mod 16 =? 5), (b1 mod 16 =? 6); reflexivity.
    - rewrite !andb_true_iff, orb_true_iff, !Z.eqb_eq. lia. }
  destruct K as (c & -> & Hc). cbn [bind].
  match goal with |- exists _, (if _ then _ else let* _ := ?x in _) = _ /\ _ =>
    assert (K : exists m, x = Ret m /\ (m = true <-> ((18 <= n)%nat /\ b1 / 16 = 1 /\ (b1 / 8) mod 2 = 0 /\ (b1 / 2) mod 2 = 0))) end.
  { clear Fin. rewrite !Ka. destruct (Z.of_nat n >=? 18) eqn:e; [|exists false; split; [reflexivity|]; split; [discriminate|lia]].
    rewrite R1 by lia. cbn [bind]. rewrite !Ka, P1, P4, P5.
    exists ((b1 / 16 * 16 =? 16) && (((b1 / 8) mod 2 * 8 =? 0) && ((b1 / 2) mod 2 * 2 =? 0)))%bool. split.
    - destruct (b1 / 16 * 16 =? 16), ((b1 / 8) mod 2 * 8 =? 0); reflexivity.
    - rewrite !andb_true_iff, !Z.eqb_eq. clear -B1 e. split; intros; repeat split; lia. }
  destruct K as (m & -> & Hm). cbn [bind].
  match goal with |- exists _, (if _ then _ else if _ then _ else if _ then _ else let* _ := ?x in _) = _ /\ _ =>
    assert (K : exists v, x = Ret v /\ (v = true <-> ((7 <= n)%nat /\ b0 = 6 /\ b3 = 3))) end.
  { clear Fin. rewrite !Ka. destruct (Z.of_nat n >=? 7) eqn:e; [|exists false; split; [reflexivity|]; split; [discriminate|lia]].
    rewrite R0, R3 by lia. cbn [bind]. rewrite !Ka. exists ((b0 =? 6) && (b3 =? 3))%bool. split.
    - destruct (b0 =? 6); reflexivity.
    - rewrite !andb_true_iff, !Z.eqb_eq. clear -e. lia. }
  destruct K as (v & -> & Hv). cbn [bind].
  match goal with |- exists _, (if _ then _ else if _ then _ else if _ then _ else if _ then _ else let* _ := ?x in _) = _ /\ _ =>
    assert (K : exists w, x = Ret w /\ (w = true <-> (n = 32%nat /\ b0 = 0x1F /\ b8 / 16 = 0))) end.
  { clear Fin. rewrite !Ka. destruct (Z.eqb_spec (Z.of_nat n) 32); [|exists false; split; [reflexivity|]; split; [discriminate|lia]].
    rewrite R0, R8 by lia. cbn [bind]. rewrite !Ka, U1. exists ((b0 =? 31) && (b8 / 16 * 16 =? 0))%bool. split.
    - destruct (b0 =? 31); reflexivity.
    - rewrite !andb_true_iff, !Z.eqb_eq. clear -e. lia. }
  destruct K as (w & -> & Hw). cbn [bind]. clear Ka.
  assert (G2 : v = true -> rd iad 2 = Ret b2) by (intro Ev; apply Hv in Ev; apply R2; lia).
  assert (G1 : w = true -> rd iad 1 = Ret b1) by (intro Ev; apply Hw in Ev; apply R1; lia).
  clear R0 R1 R2 R3 R8 R16 P1 P2 P4 P5 U1 B0 B1 B2 B3 B8 B16.
  set (x2 := b2 / 16) in *. set (x8 := b8 / 16) in *. set (M := (b1 / 16 = 1 /\ _ = 0 /\ _ = 0)) in *.
  set (x1 := b1 / 16) in *. set (C := (n = 32%nat /\ b0 = 15 /\ _)) in *.
  assert (C32 : C -> n = 32%nat /\ b0 = 15) by (intros (? & ? & _); auto).
  clearbody M C.
  destruct c.
  { eexists. split; [reflexivity|]. apply Fin; clear Fin; intros; try reflexivity.
    all: destruct Hc as [Hc _]; specialize (C32 (Hc eq_refl)); try (clear -H H0 C32; lia); try (clear -H C32; lia).
    exfalso. apply H. now apply Hc. }
  assert (NC : ~ C) by (intro; apply Hc in H; discriminate).
  destruct m; cbn [andb].
  - assert (HM : (18 <= n)%nat /\ M) by (now apply Hm). destruct HM as [H18 HM].
    destruct (Z.eqb_spec (Z.of_nat n) 18).
    { eexists. split; [reflexivity|]. apply Fin; clear Fin; intros; try reflexivity; try contradiction; try (clear -H e; lia).
      all: exfalso; try (apply H; split; [lia|assumption]). apply H0. split; [lia|assumption]. }
    match goal with |- context [if ?b then Ret IAD_MCHIP_ADVANCE else _] => destruct b eqn:Eb end.
    { assert (En : (n = 20 \/ n = 26 \/ n = 28)%nat) by (clear -Eb; lia).
      eexists. split; [reflexivity|]. apply Fin; clear Fin; intros; try reflexivity; try contradiction; try (clear -H En; lia).
      all: exfalso; try (apply H; split; [lia|assumption]). apply H0. split; [lia|assumption]. }
    assert (En : ~ (n = 18 \/ n = 20 \/ n = 26 \/ n = 28)%nat) by (clear -Eb n1; lia).
    destruct v.
    { rewrite G2 by reflexivity. cbn [bind]. rewrite S3. fold x2. eexists. split; [reflexivity|].
      assert (Hv' : (7 <= n)%nat /\ b0 = 6 /\ b3 = 3) by (now apply Hv).
      apply Fin; clear Fin; intros; try reflexivity; try contradiction; try (clear -H En Hv'; lia). }
    destruct w.
    { rewrite G1 by reflexivity. cbn [bind]. rewrite P3. fold x1. eexists. split; [reflexivity|].
      assert (Hw' : n = 32%nat /\ b0 = 0x1F /\ x8 = 0) by (now apply Hw).
      apply Fin; clear Fin; intros; try reflexivity; try contradiction; try (clear -H En Hw'; lia).
      clear -H0 Hw'; lia. }
    eexists. split; [reflexivity|]. apply Fin; clear Fin; intros; try reflexivity; try contradiction; try (clear -H En; lia).
    + apply Hv in H0. discriminate.
    + apply Hw in H. discriminate.
  - assert (NM : (18 <= n)%nat -> ~ M) by (intros ? ?; assert (false = true) by (apply Hm; auto); discriminate).
    destruct v.
    { rewrite G2 by reflexivity. cbn [bind]. rewrite S3. fold x2. eexists. split; [reflexivity|].
      assert (Hv' : (7 <= n)%nat /\ b0 = 6 /\ b3 = 3) by (now apply Hv).
      apply Fin; clear Fin; intros; try reflexivity; try contradiction; try (clear -H Hv'; lia).
      all: exfalso; destruct H as [H HM]; apply NM in HM; [assumption|lia]. }
    destruct w.
    { rewrite G1 by reflexivity. cbn [bind]. rewrite P3. fold x1. eexists. split; [reflexivity|].
      assert (Hw' : n = 32%nat /\ b0 = 0x1F /\ x8 = 0) by (now apply Hw).
      apply Fin; clear Fin; intros; try reflexivity; try contradiction; try (clear -H Hw'; lia); try (clear -H0 Hw'; lia). }
    eexists. split; [reflexivity|]. apply Fin; clear Fin; intros; try reflexivity; try contradiction.
    + exfalso; destruct H as [H HM]; apply NM in HM; [assumption|lia].
    + exfalso; destruct H as [H HM]; apply NM in HM; [assumption|lia].
    + apply Hv in H0. discriminate.
    + apply Hw in H. discriminate.
Qed.
