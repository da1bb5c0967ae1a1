(** Proofs for the descriptions that are not tables alone. *)
From Coq Require Import String.
From Verif Require Import Base BaseLemmas StrModel CapduModel FieldsModel FlagsModel TlvSpec BerSpec FieldsSpec StrSpec CapduSpec
  FlagsSpec StrProofs CapduProofs FieldsProofs PcscProofs FlagsProofs.
Open Scope string_scope.
Open Scope Z_scope.
Open Scope list_scope.
Notation length := List.length.

(** ** Numbers *)
Lemma dec_same k : forall k' v acc, 0 <= v < 10 ^ Z.of_nat k -> v < 10 ^ Z.of_nat k' -> (1 <= k)%nat -> (1 <= k')%nat ->
  decimal_text_n k' v acc = p_dec_n k v ++ acc.
Proof.
  induction k as [|k IH]; intros k' v acc V V' K K'; [lia|]. destruct k' as [|k']; [lia|].
  cbn [decimal_text_n p_dec_n]. unfold digit. destruct (Z.ltb_spec v 10) as [L|L].
  - rewrite Z.mod_small by lia. replace (v / 10) with 0 by (symmetry; apply Z.div_small; lia). reflexivity.
  - assert (Q : v / 10 <> 0) by (Z.div_mod_to_equations; lia). destruct (Z.eqb_spec (v / 10) 0) as [|_]; [contradiction|].
    rewrite Nat2Z.inj_succ, Z.pow_succ_r in V, V' by lia.
    assert (V1 : 0 <= v / 10 < 10 ^ Z.of_nat k) by (split; [apply Z.div_pos; lia|apply Z.div_lt_upper_bound; lia]).
    assert (V2 : v / 10 < 10 ^ Z.of_nat k') by (apply Z.div_lt_upper_bound; lia).
    rewrite (IH k' (v / 10)); [rewrite <- app_assoc; reflexivity|assumption|assumption| |].
    + destruct k; [cbn in V1; Z.div_mod_to_equations; lia|lia].
    + destruct k'; [cbn in V2; Z.div_mod_to_equations; lia|lia].
Qed.
Lemma p_dec_text v : 0 <= v < 10000000000 -> p_dec v = decimal_text v.
Proof.
  intros V. assert (E : decimal_text_n 20 v [] = p_dec_n 10 v ++ []).
  { apply dec_same; [change (10 ^ Z.of_nat 10) with 10000000000; lia|change (10 ^ Z.of_nat 20) with 100000000000000000000; lia|lia|lia]. }
  rewrite app_nil_r in E. symmetry. exact E.
Qed.
Lemma p_dec_n_decimal k : forall v, 0 <= v < 10 ^ Z.of_nat k -> (1 <= k)%nat -> exists ds, decimal v ds /\ p_dec_n k v = chars ds.
Proof.
  induction k as [|k IH]; intros v V K; [lia|]. cbn [p_dec_n]. destruct (Z.ltb_spec v 10) as [L|L].
  - exists [v]. split; [|reflexivity]. split; [repeat constructor; lia|]. split; [unfold number; cbn [fold_left]; lia|]. split; [discriminate|]. cbn [hd]. intros ->; reflexivity.
  - rewrite Nat2Z.inj_succ, Z.pow_succ_r in V by lia.
    assert (V1 : 0 <= v / 10 < 10 ^ Z.of_nat k) by (split; [apply Z.div_pos; lia|apply Z.div_lt_upper_bound; lia]).
    destruct (IH (v / 10) V1) as (ds & (D & N & NE & H0) & E).
    { destruct k; [cbn in V1; Z.div_mod_to_equations; lia|lia]. }
    exists (ds ++ [v mod 10]). split; [|rewrite E; unfold chars; rewrite map_app; reflexivity].
    split; [apply Forall_app; split; [exact D|repeat constructor; Z.div_mod_to_equations; lia]|].
    split; [rewrite number_app, N; unfold Zlen, number; cbn [length fold_left]; Z.div_mod_to_equations; lia|].
    split; [destruct ds; discriminate|]. destruct ds as [|d ds]; [contradiction|]. cbn [app hd] in *. intros ->. specialize (H0 eq_refl).
    injection H0 as ->. cbn in N. Z.div_mod_to_equations; lia.
Qed.
(** The decimal texts of the specification are those of StrSpec.v. *)
Lemma decimal_text_ok v : 0 <= v < 10000000000 -> dec_text v (decimal_text v).
Proof. intros V. rewrite <- p_dec_text by exact V. destruct (p_dec_n_decimal 10 v ltac:(change (10 ^ Z.of_nat 10) with 10000000000; lia) ltac:(lia)) as (ds & D & E). exists ds. split; assumption. Qed.
Lemma decimal_text_nz v : 0 <= v < 10000000000 -> nz (decimal_text v).
Proof.
  intros V. destruct (decimal_text_ok v V) as (ds & (D & _) & ->). unfold nz, chars. apply Forall_map. revert D. apply Forall_impl. intros; lia.
Qed.
Lemma decimal_text_len v : 0 <= v < 10000000000 -> (length (decimal_text v) <= 10)%nat.
Proof.
  intros V. rewrite <- p_dec_text by exact V. unfold p_dec. generalize 10%nat. clear. intros k. revert v. induction k as [|k IH]; intros v; [cbn; lia|].
  cbn [p_dec_n]. destruct (v <? 10); [cbn [length]; lia|]. rewrite app_length. specialize (IH (v / 10)). cbn [length]. lia.
Qed.
Lemma hex2_02X b : is_byte b -> p_02X b = hex2 b.
Proof. intros B. unfold hex2. rewrite <- hex_02X by (constructor; [exact B|constructor]). cbn [flat_map]. rewrite app_nil_r. reflexivity. Qed.

(** ** Terminal type and cryptogram information data *)
Lemma table_app a b v : table_texts (a ++ b) v = table_texts a v ++ table_texts b v.
Proof. apply flat_map_app. Qed.
Lemma full_one s : s <> "" -> full [lit s].
Proof. intros H. constructor; [|constructor]. intros E. apply lit_nil in E. contradiction. Qed.

Lemma term_type_run b : is_byte b -> b / 16 <= 3 -> b mod 16 <= 7 -> run [b] term_type_prog = Ret (term_type_texts b).
Proof.
  intros B H1 H2.
  assert (E : run [b] term_type_prog = Ret (stmt_says b (nth 0 term_type_prog (If [] "" "")) ++ stmt_says b (nth 1 term_type_prog (If [] "" "")) ++ [])) by reflexivity.
  rewrite E. f_equal.
  pose proof (byte_sweep (fun b => (3 <? b / 16) || (7 <? b mod 16) ||
    ll_eqb (stmt_says b (nth 0 term_type_prog (If [] "" "")) ++ stmt_says b (nth 1 term_type_prog (If [] "" "")) ++ []) (term_type_texts b))
    ltac:(vm_compute; reflexivity) b B) as Q. cbn beta in Q.
  apply orb_prop in Q as [Q|Q]; [apply orb_prop in Q as [Q|Q]; lia|]. apply ll_eqb_eq in Q. exact Q.
Qed.
Lemma chosen_ne x cases other : other <> "" -> Forall (fun c => snd c <> "") cases -> chosen x cases other <> "".
Proof.
  intros O F. induction F as [|[k s] l H _ IH]; [exact O|]. cbn [chosen]. destruct (x =? k); [exact H|exact IH].
Qed.
Lemma term_type_full b : full (term_type_texts b).
Proof.
  unfold term_type_texts. constructor; [|constructor; [|constructor]]; intros E; apply lit_nil in E; revert E; apply chosen_ne;
    try discriminate; repeat (constructor; [discriminate|]); constructor.
Qed.
Lemma term_type_listed b str : is_byte b -> b <> 0 -> str <> [] -> b / 16 <= 3 -> b mod 16 <= 7 ->
  exists new, term_type_list b str = Ret (0, new) /\ in_lines str new (term_type_texts b).
Proof.
  intros B Z0 S H1 H2. unfold term_type_list. rewrite (Zlen_pos str S). destruct (Z.eqb_spec b 0); [contradiction|]. cbn [orb].
  rewrite term_type_run by assumption. cbn [bind]. apply emit_listed, term_type_full.
Qed.
Lemma term_type_safe b str : is_byte b -> b <> 0 -> str <> [] -> exists new texts, term_type_list b str = Ret (0, new) /\ length texts = 2%nat /\ in_lines str new texts.
Proof.
  intros B Z0 S. unfold term_type_list. rewrite (Zlen_pos str S). destruct (Z.eqb_spec b 0); [contradiction|]. cbn [orb].
  set (t := stmt_says b (nth 0 term_type_prog (If [] "" "")) ++ stmt_says b (nth 1 term_type_prog (If [] "" "")) ++ []).
  assert (E : run [b] term_type_prog = Ret t) by reflexivity. rewrite E. cbn [bind].
  pose proof (byte_sweep (fun b => let t := stmt_says b (nth 0 term_type_prog (If [] "" "")) ++ stmt_says b (nth 1 term_type_prog (If [] "" "")) ++ [] in
    (length t =? 2)%nat && forallb (fun x => negb (length x =? 0)%nat) t) ltac:(vm_compute; reflexivity) b B) as Q. cbn beta zeta in Q. fold t in Q.
  apply andb_prop in Q as [Q1 Q2]. destruct (emit_listed 0 t str) as (new & En & L).
  { apply Forall_forall. intros x I. rewrite forallb_forall in Q2. specialize (Q2 x I). intros ->. discriminate. }
  exists new, t. split; [exact En|]. split; [apply Nat.eqb_eq; exact Q1|exact L].
Qed.
Lemma cid_listed b str : is_byte b -> str <> [] -> exists new, cid_list b str = Ret (0, new) /\ in_lines str new (table_texts T_cid [b]).
Proof.
  intros B S. unfold cid_list. rewrite (Zlen_pos str S).
  assert (Bv : bytes [b]) by (constructor; [exact B|constructor]).
  rewrite (prog_run 1 [b] cid_prog_a (firstn 2 T_cid) Bv) by first [solve [vm_compute; reflexivity] | unfold Zlen; cbn [length]; lia]. cbn [bind].
  rewrite (prog_run 1 [b] cid_prog_b (skipn 3 T_cid) Bv) by first [solve [vm_compute; reflexivity] | unfold Zlen; cbn [length]; lia]. cbn [bind].
  assert (E : (if negb (Z.land b 0x08 =? 0) then [lit "Advice required"]
           else if negb (Z.land b 0x07 =? 0) then [lit "No advice required"] else []) = table_texts (firstn 1 (skipn 2 T_cid)) [b]).
  { pose proof (byte_sweep (fun b => ll_eqb (if negb (Z.land b 0x08 =? 0) then [lit "Advice required"]
           else if negb (Z.land b 0x07 =? 0) then [lit "No advice required"] else []) (row_says b (nth 2 T_cid (Oct 0 [])))) ltac:(vm_compute; reflexivity) b B) as Q.
    cbn beta in Q. apply ll_eqb_eq in Q. rewrite Q. unfold table_texts. cbn [T_cid skipn firstn nth flat_map]. rewrite app_nil_r. reflexivity. }
  rewrite E.
  replace (table_texts (firstn 2 T_cid) [b] ++ table_texts (firstn 1 (skipn 2 T_cid)) [b] ++ table_texts (skipn 3 T_cid) [b]) with (table_texts T_cid [b])
    by (rewrite <- !table_app; reflexivity).
  apply emit_listed. apply full_table. reflexivity.
Qed.

(** ** Application file locator *)
Lemma afl_text_line e : afl_valid e -> afl_text e = afl_line e.
Proof.
  intros (V1 & V2 & V3 & V4). unfold afl_text, afl_line. rewrite !p_dec_text by lia.
  rewrite (Z.eqb_sym (a_last e)). destruct (Z.eqb_spec (a_first e) (a_last e)) as [E|E].
  - destruct (Z.eqb_spec (a_oda e) 0) as [O|O]; cbn [negb]; rewrite ?app_nil_l, ?app_nil_r, <- ?app_assoc; [reflexivity|].
    destruct (Z.eqb_spec (a_oda e) 1) as [O1|O1]; [reflexivity|lia].
  - destruct (Z.eqb_spec (a_oda e) 0) as [O|O]; cbn [negb]; rewrite ?app_nil_l, ?app_nil_r, <- ?app_assoc; [reflexivity|].
    destruct (Z.eqb_spec (a_oda e) 1) as [O1|O1].
    + destruct (a_oda e >? 1) eqn:G; [lia|]. reflexivity.
    + destruct (a_oda e >? 1) eqn:G; [|lia]. reflexivity.
Qed.
Lemma afl_next_pos itr r e itr' : afl_itr_next itr = Ret (r, Some e, itr') -> r = 4.
Proof.
  unfold afl_itr_next. intros H. repeat first [discriminate
    | match type of H with context [if ?c then _ else _] => destruct c end
    | match type of H with context [bind ?m _] => destruct m; cbn [bind] in H end]. injection H as <- _ _. reflexivity.
Qed.
Lemma afl_texts_all fuel : forall itr es r, afl_all fuel itr = Ret (es, r) -> afl_texts fuel itr = Ret (r, map afl_text es).
Proof.
  induction fuel as [|fuel IH]; intros itr es r H; [discriminate|]. cbn [afl_all] in H. cbn [afl_texts].
  destruct (afl_itr_next itr) as [[[z [e|]] itr']| |] eqn:N; cbn [bind] in H |- *; try discriminate.
  - apply afl_next_pos in N as ->. destruct (afl_all fuel itr') as [[es' r']| |] eqn:A; cbn [bind] in H; try discriminate.
    injection H as <- <-. rewrite (IH _ _ _ A). reflexivity.
  - injection H as <- <-. reflexivity.
Qed.
Lemma in_lines_length str new t : in_lines str new t -> length new = length str.
Proof.
  intros (c & C & W & T & O). destruct t as [|x t]; [rewrite O; [reflexivity|left; reflexivity]|].
  destruct (Nat.lt_ge_cases (length str) 3) as [L|L]; [rewrite O; [reflexivity|right; exact L]|].
  destruct (T ltac:(discriminate) L) as (L1 & ->). rewrite app_length. cbn [length]. rewrite skipn_length. lia.
Qed.
Lemma afl_line_ne e : afl_line e <> [].
Proof. discriminate. Qed.
Lemma afl_listed es str : Forall afl_valid es -> (1 <= length es <= 63)%nat -> str <> [] ->
  exists new, afl_list (flat_map afl_octets es) str = Ret (0, new) /\ in_lines str new (map afl_line es).
Proof.
  intros V L S. unfold afl_list.
  assert (Z1 : Zlen (flat_map afl_octets es) = 4 * Z.of_nat (length es)) by (unfold Zlen; rewrite afl_flat_len; lia).
  rewrite (Zlen_pos str S), Z1. destruct (Z.eqb_spec (4 * Z.of_nat (length es)) 0); [lia|]. cbn [orb].
  destruct (afl_init_spec (flat_map afl_octets es)) as [[_ I1] I2].
  assert (E : fst (afl_itr_init (flat_map afl_octets es)) = 0) by (apply I1; rewrite Z1; lia).
  specialize (I2 E). destruct (afl_itr_init (flat_map afl_octets es)) as [r o]. cbn [fst snd] in *. subst r o.
  rewrite (afl_texts_all _ _ es 0) by (apply afl_all_valid; [exact V|]; unfold Zlen in Z1; lia). cbn [bind].
  replace (map afl_text es) with (map afl_line es).
  2:{ apply map_ext_in. intros e I. symmetry. apply afl_text_line. exact (proj1 (Forall_forall _ _) V e I). }
  destruct (emit_listed 0 (map afl_line es) str) as (new & En & Ln).
  { apply Forall_map. apply Forall_forall. intros e _. apply afl_line_ne. }
  rewrite En. cbn [bind]. exists new. split; [reflexivity|exact Ln].
Qed.
Lemma afl_not_listed l str : bytes l -> str <> [] -> ~ (exists es, Forall afl_valid es /\ (1 <= length es <= 63)%nat /\ l = flat_map afl_octets es) ->
  exists r new, afl_list l str = Ret (r, new) /\ r <> 0 /\ length new = length str /\ (new = str \/ 0 < r /\ hd 1 new = 0).
Proof.
  intros B S N. unfold afl_list. rewrite (Zlen_pos str S). destruct (Z.eqb_spec (Zlen l) 0) as [Z0|Z0]; cbn [orb].
  { exists (-1), str. split; [reflexivity|]. split; [lia|]. split; [reflexivity|left; reflexivity]. }
  destruct (afl_init_spec l) as [[I1 I2] I3]. destruct (afl_itr_init l) as [r [itr|]] eqn:I; cbn [fst snd] in *.
  - assert (E0 : r = 0).
    { unfold afl_itr_init in I. repeat match type of I with context [if ?c then _ else _] => destruct c end; congruence. }
    specialize (I1 E0). specialize (I3 E0). injection I3 as ->.
    destruct (afl_all_any (Datatypes.S (length l)) l B ltac:(lia)) as (es & rest & r' & A & El & V & R & R0 & _).
    rewrite (afl_texts_all _ _ _ _ A). cbn [bind].
    destruct (emit_listed 0 (map afl_text es) str) as (new & En & Ln).
    { apply Forall_map. revert V. apply Forall_impl. intros e Ve. rewrite (afl_text_line e Ve). apply afl_line_ne. }
    rewrite En. cbn [bind]. apply in_lines_length in Ln.
    destruct (Z.eq_dec r' 0) as [->|Hr].
    + exfalso. apply N. exists es. destruct R0 as [R0 _]. specialize (R0 eq_refl). subst rest. rewrite app_nil_r in El. split; [exact V|]. split; [|exact El].
      rewrite El in I1. unfold Zlen in I1. rewrite afl_flat_len in I1. lia.
    + destruct (r' <? 0) eqn:G; [|lia]. assert (NE : new <> []) by (destruct new; [destruct str; [contradiction|discriminate]|discriminate]).
      destruct (wr0 new NE) as (t & W & Lt). rewrite W. cbn [bind]. exists (- r'), (0 :: t). split; [reflexivity|]. split; [lia|].
      split; [congruence|]. right. split; [lia|reflexivity].
  - exists r, str. split; [reflexivity|]. split; [|split; [reflexivity|left; reflexivity]].
    intros ->. specialize (I3 eq_refl). discriminate.
Qed.

(** ** Application selection registered proprietary data *)
Lemma asrpd_texts_ok es : Forall asrpd_ok es -> forall fuel, (length es < fuel)%nat ->
  asrpd_texts fuel (flat_map asrpd_entry es) = Ret (0, map asrpd_line es).
Proof.
  induction 1 as [|[id d] es (L2 & Bi & Bd & Ld) _ IH]; intros fuel F; (destruct fuel as [|fuel]; [lia|]); cbn [length] in F.
  - reflexivity.
  - cbn [fst snd] in *. destruct id as [|a [|b [|]]]; cbn [length] in L2; try lia.
    cbn [asrpd_texts flat_map asrpd_entry fst snd app].
    change ([a; b] ++ Zlen d :: d) with (a :: b :: Zlen d :: d).
    set (rest := flat_map asrpd_entry es).
    assert (LZ : Zlen (a :: b :: Zlen d :: d ++ rest) = 3 + Zlen d + Zlen rest) by (unfold Zlen; cbn [length]; rewrite app_length; lia).
    assert (Hd : 0 <= Zlen d) by (unfold Zlen; lia). assert (Hr : 0 <= Zlen rest) by (unfold Zlen; lia).
    rewrite LZ. destruct (Z.eqb_spec (3 + Zlen d + Zlen rest) 0); [lia|]. destruct (Z.ltb_spec (3 + Zlen d + Zlen rest) 3); [lia|].
    cbn [rd nth_error bind]. unfold Zlen in Ld |- *.
    destruct (2 + 1 + Z.of_nat (length d) >? 3 + Z.of_nat (length d) + Z.of_nat (length rest)) eqn:G; [lia|].
    replace (skipn (Z.to_nat (2 + 1 + Z.of_nat (length d))) _) with rest.
    2:{ replace (Z.to_nat (2 + 1 + Z.of_nat (length d))) with (3 + length d)%nat by lia. cbn [Nat.add skipn]. symmetry. apply skipn_length_app. }
    rewrite IH by lia. cbn [bind map]. f_equal. f_equal. f_equal. unfold asrpd_line. cbn [fst chosen].
    assert (Eb : Z.shiftl a 8 + b = be [a; b]) by (rewrite Z.shiftl_mul_pow2 by lia; unfold be; cbn; lia).
    rewrite Eb. destruct (be [a; b] =? 1); [reflexivity|]. destruct (be [a; b] =? 3); reflexivity.
Qed.
Lemma asrpd_bad_tail es : Forall asrpd_ok es -> forall fuel rest, (length es < fuel)%nat ->
  rest <> [] -> bytes rest -> (forall e r, asrpd_ok e -> rest <> asrpd_entry e ++ r) ->
  exists r ts, asrpd_texts fuel (flat_map asrpd_entry es ++ rest) = Ret (r, map asrpd_line es ++ ts) /\ 0 < r /\ (length ts <= 1)%nat /\ full ts.
Proof.
  induction 1 as [|[id d] es (L2 & Bi & Bd & Ld) _ IH]; intros fuel rest F NE Br N; (destruct fuel as [|fuel]; [lia|]); cbn [length] in F.
  - cbn [flat_map app asrpd_texts map]. rewrite (Zlen_pos rest NE). destruct (Z.ltb_spec (Zlen rest) 3) as [L|L].
    { exists 2, []. split; [reflexivity|]. split; [lia|]. split; [cbn; lia|constructor]. }
    unfold Zlen in L. destruct rest as [|a [|b [|l rest]]]; cbn [length] in L; try lia. cbn [rd nth_error bind].
    destruct (2 + 1 + l >? Zlen (a :: b :: l :: rest)) eqn:G.
    + exists 3. eexists [_]. split; [reflexivity|]. split; [lia|]. split; [cbn; lia|]. constructor; [|constructor].
      destruct (_ =? 1); [discriminate|]. destruct (_ =? 3); discriminate.
    + exfalso. apply Forall_cons_iff in Br as [Ba Br]. apply Forall_cons_iff in Br as [Bb Br]. apply Forall_cons_iff in Br as [Bl Br].
      unfold is_byte in Bl. unfold Zlen in G. cbn [length] in G.
      apply (N ([a; b], firstn (Z.to_nat l) rest) (skipn (Z.to_nat l) rest)).
      * split; [reflexivity|]. split; [constructor; [exact Ba|constructor; [exact Bb|constructor]]|]. cbn [snd]. split; [apply bytes_firstn; exact Br|].
        rewrite firstn_length. lia.
      * unfold asrpd_entry. cbn [fst snd app]. unfold Zlen. rewrite firstn_length, Nat.min_l by lia. rewrite Z2Nat.id by lia.
        rewrite firstn_skipn. reflexivity.
  - cbn [fst snd] in *. destruct id as [|a [|b [|]]]; cbn [length] in L2; try lia.
    cbn [asrpd_texts flat_map asrpd_entry fst snd app].
    change ([a; b] ++ Zlen d :: d) with (a :: b :: Zlen d :: d).
    set (tl := flat_map asrpd_entry es).
    change (((a :: b :: Zlen d :: d) ++ tl) ++ rest) with (a :: b :: Zlen d :: (d ++ tl) ++ rest). rewrite <- app_assoc.
    assert (LZ : Zlen (a :: b :: Zlen d :: d ++ tl ++ rest) = 3 + Zlen d + Zlen (tl ++ rest)) by (unfold Zlen; cbn [length]; rewrite app_length; lia).
    assert (Hd : 0 <= Zlen d) by (unfold Zlen; lia). assert (Hr : 0 <= Zlen (tl ++ rest)) by (unfold Zlen; lia).
    rewrite LZ. destruct (Z.eqb_spec (3 + Zlen d + Zlen (tl ++ rest)) 0); [lia|]. destruct (Z.ltb_spec (3 + Zlen d + Zlen (tl ++ rest)) 3); [lia|].
    cbn [rd nth_error bind]. unfold Zlen in Ld |- *.
    destruct (2 + 1 + Z.of_nat (length d) >? 3 + Z.of_nat (length d) + Z.of_nat (length (tl ++ rest))) eqn:G; [lia|].
    replace (skipn (Z.to_nat (2 + 1 + Z.of_nat (length d))) _) with (tl ++ rest).
    2:{ replace (Z.to_nat (2 + 1 + Z.of_nat (length d))) with (3 + length d)%nat by lia. cbn [Nat.add skipn]. symmetry. apply skipn_length_app. }
    destruct (IH fuel rest ltac:(lia) NE Br N) as (r & ts & E & R & L & Fu). fold tl in E. rewrite E. cbn [bind map app].
    exists r, ts. split; [|split; [exact R|split; [exact L|exact Fu]]]. f_equal. f_equal. f_equal. unfold asrpd_line. cbn [fst chosen].
    assert (Eb : Z.shiftl a 8 + b = be [a; b]) by (rewrite Z.shiftl_mul_pow2 by lia; unfold be; cbn; lia).
    rewrite Eb. destruct (be [a; b] =? 1); [reflexivity|]. destruct (be [a; b] =? 3); reflexivity.
Qed.
Lemma asrpd_line_ne e : asrpd_line e <> [].
Proof. unfold asrpd_line. intros E. apply lit_nil in E. revert E. apply chosen_ne; [discriminate|]. repeat (constructor; [discriminate|]). constructor. Qed.
Lemma asrpd_len es : Forall asrpd_ok es -> (3 * length es <= length (flat_map asrpd_entry es))%nat.
Proof.
  induction 1 as [|[id d] es (L & _) _ IH]; [cbn; lia|]. cbn [flat_map length]. rewrite app_length. unfold asrpd_entry at 1. cbn [fst snd] in *.
  rewrite app_length. cbn [length]. lia.
Qed.
Lemma asrpd_listed es str : Forall asrpd_ok es -> es <> [] -> str <> [] ->
  exists new, asrpd_list (flat_map asrpd_entry es) str = Ret (0, new) /\ in_lines str new (map asrpd_line es).
Proof.
  intros V NE S. unfold asrpd_list. rewrite (Zlen_pos str S). pose proof (asrpd_len es V) as L. assert (1 <= length es)%nat by (destruct es; [contradiction|cbn; lia]).
  destruct (Z.eqb_spec (Zlen (flat_map asrpd_entry es)) 0) as [Z0|Z0]; [unfold Zlen in Z0; lia|].
  destruct (Z.ltb_spec (Zlen (flat_map asrpd_entry es)) 3) as [Z3|Z3]; [unfold Zlen in Z3; lia|].
  rewrite asrpd_texts_ok by (exact V || lia). cbn [bind]. apply emit_listed. apply Forall_map. apply Forall_forall. intros e _. apply asrpd_line_ne.
Qed.
Lemma asrpd_split v : bytes v -> exists es rest, Forall asrpd_ok es /\ v = flat_map asrpd_entry es ++ rest /\ (forall e r, asrpd_ok e -> rest <> asrpd_entry e ++ r).
Proof.
  remember (length v) as n eqn:En. assert (Hn : (length v <= n)%nat) by lia. clear En. revert v Hn.
  induction n as [|n IH]; intros v Hn B.
  - exists [], v. split; [constructor|]. split; [reflexivity|]. intros [id d] r (L & _) E. rewrite E in Hn. unfold asrpd_entry in Hn. cbn [fst snd] in *.
    rewrite !app_length in Hn. cbn [length] in Hn. lia.
  - assert (D : (exists e r, asrpd_ok e /\ v = asrpd_entry e ++ r) \/ ~ (exists e r, asrpd_ok e /\ v = asrpd_entry e ++ r)).
    { destruct v as [|a [|b [|l v]]]; try (right; intros ([id d] & r & (L & _) & E); apply (f_equal (@List.length Z)) in E; unfold asrpd_entry in E; cbn [fst snd] in *;
        rewrite !app_length in E; cbn [length] in E; lia).
      apply Forall_cons_iff in B as [Ba B]. apply Forall_cons_iff in B as [Bb B]. apply Forall_cons_iff in B as [Bl B]. unfold is_byte in Bl.
      destruct (Nat.le_gt_cases (Z.to_nat l) (length v)) as [G|G].
      - left. exists ([a; b], firstn (Z.to_nat l) v), (skipn (Z.to_nat l) v). split.
        + split; [reflexivity|]. split; [constructor; [exact Ba|constructor; [exact Bb|constructor]]|]. cbn [snd]. split; [apply bytes_firstn; exact B|].
          rewrite firstn_length. lia.
        + unfold asrpd_entry. cbn [fst snd app]. unfold Zlen. rewrite firstn_length, Nat.min_l by lia. rewrite Z2Nat.id by lia. rewrite firstn_skipn. reflexivity.
      - right. intros ([id d] & r & (L & _) & E). cbn [fst snd] in *. destruct id as [|x [|y [|]]]; cbn [length] in L; try lia.
        unfold asrpd_entry in E. cbn [fst snd app] in E. injection E as _ _ E1 E2. rewrite E1, E2 in G. unfold Zlen in G. rewrite app_length in G. lia. }
    destruct D as [(e & r & V & E)|D].
    + assert (Lr : (length r <= n)%nat). { rewrite E in Hn. destruct e as [id d]. destruct V as (L & _). unfold asrpd_entry in Hn. cbn [fst snd] in *. rewrite !app_length in Hn. cbn [length] in Hn. lia. }
      assert (Br : bytes r). { rewrite E in B. apply bytes_app in B. apply B. }
      destruct (IH r Lr Br) as (es & rest & Vs & Er & N). exists (e :: es), rest. split; [constructor; assumption|]. split; [|exact N].
      cbn [flat_map]. rewrite <- app_assoc, <- Er. exact E.
    + exists [], v. split; [constructor|]. split; [reflexivity|]. intros e r V E. apply D. exists e, r. split; assumption.
Qed.
Lemma asrpd_not_listed v str : bytes v -> v <> [] -> str <> [] -> ~ (exists es, Forall asrpd_ok es /\ v = flat_map asrpd_entry es) ->
  exists r new, asrpd_list v str = Ret (r, new) /\ 0 < r /\ length new = length str.
Proof.
  intros B NV S N. unfold asrpd_list. rewrite (Zlen_pos str S), (Zlen_pos v NV).
  destruct (Z.ltb_spec (Zlen v) 3) as [Z3|Z3]; [exists 1, str; split; [reflexivity|]; split; [lia|reflexivity]|].
  destruct (asrpd_split v B) as (es & rest & V & E & Nr).
  assert (NR : rest <> []). { intros ->. apply N. exists es. split; [exact V|]. rewrite app_nil_r in E. exact E. }
  assert (Br : bytes rest). { rewrite E in B. apply bytes_app in B. apply B. }
  pose proof (asrpd_len es V) as L. assert (Lv : (length (flat_map asrpd_entry es) <= length v)%nat) by (rewrite E, app_length; lia).
  destruct (asrpd_bad_tail es V (Datatypes.S (length v)) rest ltac:(lia) NR Br Nr) as (r & ts & Et & R & _ & Fu).
  rewrite <- E in Et. rewrite Et. cbn [bind].
  destruct (emit_listed r (map asrpd_line es ++ ts) str) as (new & En & Ln).
  { apply full_app; [apply Forall_map; apply Forall_forall; intros e _; apply asrpd_line_ne|exact Fu]. }
  exists r, new. split; [exact En|]. split; [exact R|apply (in_lines_length _ _ _ Ln)].
Qed.
