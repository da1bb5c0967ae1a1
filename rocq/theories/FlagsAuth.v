(** Proofs for additional terminal capabilities, the form factor indicator, issuer
    authentication data, response codes and single octets. *)
From Coq Require Import String.
From Verif Require Import Base BaseLemmas StrModel CapduModel FieldsModel FlagsModel TlvSpec BerSpec FieldsSpec StrSpec CapduSpec
  FlagsSpec StrProofs CapduProofs FieldsProofs PcscProofs FlagsProofs FlagsTexts FlagsMore FlagsData.
Open Scope string_scope.
Open Scope Z_scope.
Open Scope list_scope.
Notation length := List.length.

(** ** Additional terminal capabilities: the table the code implements *)
Definition T_addl_code : list row :=
  firstn 7 T_addl_term_caps ++ Any [(4, [8;7;6;5])] "" "Terminal Data Input Capability: No print, electronic or display output" :: skipn 8 T_addl_term_caps.
Lemma addl_same v : range (octet v 4) 8 5 <> 0 -> bytes v -> table_texts T_addl_code v = table_texts T_addl_term_caps v.
Proof.
  intros R B. rewrite <- (firstn_skipn 7 T_addl_term_caps). unfold T_addl_code. rewrite !table_app. f_equal.
  change (skipn 7 T_addl_term_caps) with (Any [(4, [8;7;6;5])] "" "Terminal Data Output Capability: No print, electronic or display output" :: skipn 8 T_addl_term_caps).
  unfold table_texts. cbn [flat_map]. f_equal. cbn [row_texts existsb fst snd].
  assert (Q : (bit (octet v 4) 8 || (bit (octet v 4) 7 || (bit (octet v 4) 6 || (bit (octet v 4) 5 || false)))) = true).
  { pose proof (byte_sweep (fun b => (range b 8 5 =? 0) || (bit b 8 || (bit b 7 || (bit b 6 || (bit b 5 || false))))) ltac:(vm_compute; reflexivity) _ (octet_byte v 4 B)) as Q.
    cbn beta in Q. apply orb_prop in Q as [Q|Q]; [lia|exact Q]. }
  rewrite Q. reflexivity.
Qed.
Lemma addl_listed v str : bytes v -> str <> [] ->
  (Zlen v = 5 -> range (octet v 4) 8 5 <> 0 ->
    exists new, addl_term_caps_list v str = Ret (0, new) /\ in_lines str new (table_texts T_addl_term_caps v)) /\
  (Zlen v = 5 -> exists new, addl_term_caps_list v str = Ret (0, new) /\ length new = length str) /\
  (Zlen v <> 5 -> exists r, r <> 0 /\ addl_term_caps_list v str = Ret (r, str)).
Proof.
  intros B S. destruct (field_listed true 5 addl_term_caps_prog T_addl_code) with (v := v) (str := str) as [G1 G2];
    [vm_compute; reflexivity|reflexivity|lia|exact B|].
  split; [|split].
  - intros L R. rewrite <- (addl_same v R B). apply G1; assumption.
  - intros L. destruct (G1 L S) as (new & E & I). exists new. split; [exact E|exact (in_lines_length _ _ _ I)].
  - intros L. apply G2; assumption.
Qed.

(** ** Form factor indicator *)
Lemma ffi_listed v str : bytes v -> str <> [] ->
  (Zlen v = 4 -> range (octet v 1) 8 6 = 1 -> exists new, ffi_list v str = Ret (0, new) /\ in_lines str new (table_texts T_ffi v)) /\
  (Zlen v = 4 -> range (octet v 1) 8 6 <> 1 -> exists new, ffi_list v str = Ret (0, new) /\
     in_lines str new [lit "Form Factor Indicator (FFI): Version Number " ++ decimal_text (range (octet v 1) 8 6)]) /\
  (Zlen v <> 4 -> exists r, r <> 0 /\ ffi_list v str = Ret (r, str)).
Proof.
  intros B S. unfold ffi_list. rewrite (Zlen_pos str S).
  pose proof (byte_sweep (fun b => Bool.eqb (Z.land b 0xE0 =? 0x20) (range b 8 6 =? 1) && (Z.shiftr b 5 =? range b 8 6) && ll_eqb [p_dec (Z.shiftr b 5)] [decimal_text (range b 8 6)])
    ltac:(vm_compute; reflexivity) _ (octet_byte v 1 B)) as Q. cbn beta in Q.
  apply andb_prop in Q as [Q Q3]. apply andb_prop in Q as [Q1 Q2]. apply Bool.eqb_prop in Q1. apply ll_eqb_eq in Q3.
  apply (f_equal (fun l => hd [] l)) in Q3. cbn [hd] in Q3.
  split; [|split]; intros L.
  - intros R. rewrite L. cbn [Z.eqb Pos.eqb negb]. change 0%nat with (Z.to_nat 0). rewrite rd_octet by lia. cbn [bind]. change (0 + 1) with 1. rewrite Q1, R. cbn [Z.eqb Pos.eqb negb].
    rewrite (prog_run 4 v ffi_prog T_ffi B) by first [lia|vm_compute; reflexivity]. cbn [bind]. apply emit_listed, full_table. reflexivity.
  - intros R. rewrite L. cbn [Z.eqb Pos.eqb negb]. change 0%nat with (Z.to_nat 0). rewrite rd_octet by lia. cbn [bind]. change (0 + 1) with 1. rewrite Q1.
    destruct (Z.eqb_spec (range (octet v 1) 8 6) 1) as [E|E]; [contradiction|]. cbn [negb]. rewrite Q3. apply emit_listed. apply full_cons; [discriminate|constructor].
  - destruct (Zlen v =? 0); [exists (-1); split; [lia|reflexivity]|]. destruct (Z.eqb_spec (Zlen v) 4) as [E|E]; [contradiction|]. cbn [negb]. exists 1. split; [lia|reflexivity].
Qed.

(** ** Single octets *)
Lemma pick_chosen x cases other : pick x cases other = chosen x cases other.
Proof. induction cases as [|[k s] t IH]; [reflexivity|]. cbn [pick chosen]. rewrite IH. reflexivity. Qed.
Lemma chosen_nz x cases other : forallb (fun e => forallb (fun c => negb (c =? 0)) (lit (snd e))) cases = true -> nz (lit other) -> nz (lit (chosen x cases other)).
Proof.
  induction cases as [|[k s] t IH]; intros F N; [exact N|]. cbn [forallb snd] in F. apply andb_prop in F as [F1 F]. cbn [chosen].
  destruct (x =? k); [apply nz_lit, F1|apply IH; assumption].
Qed.
Definition octet_ok (f : Z -> list Z -> out (Z * list Z)) (g : Z -> string) : Prop := forall b str, is_byte b -> str <> [] ->
  (g b <> "" -> exists new, f b str = Ret (0, new) /\ shown str new (lit (g b))) /\
  (g b = "" -> f b str = Ret (1, str)).
Lemma octet_string_ok cases : forallb (fun e => forallb (fun c => negb (c =? 0)) (lit (snd e))) cases = true ->
  octet_ok (octet_string 0xFF cases "") (fun b => chosen b cases "").
Proof.
  intros F b str B S. unfold octet_string. rewrite (Zlen_pos str S).
  assert (E : Z.land b 0xFF = b) by (change 0xFF with (Z.ones 8); rewrite Z.land_ones by lia; apply Z.mod_small; exact B).
  rewrite E. change (pick b cases "") with (chosen b cases ""). pose proof (chosen_nz b cases "" F (Forall_nil _)) as N. split.
  - intros G. destruct (say_n_shown str (lit (chosen b cases "")) S N) as (new & En & Sh).
    destruct (chosen b cases "") as [|c s] eqn:EQ; [contradiction|]. rewrite En. exists new. split; [reflexivity|exact Sh].
  - intros G. rewrite G. reflexivity.
Qed.
Lemma into_cut (l : list Z) (x : Z) : (1 <= length l)%nat -> wr l (length l - 1) x = Ret (firstn (length l - 1) l ++ [x]).
Proof.
  intros L. destruct (rev l) as [|z r] eqn:E; [apply (f_equal (@List.length Z)) in E; rewrite rev_length in E; cbn in E; lia|].
  assert (El : l = rev r ++ [z]) by (rewrite <- (rev_involutive l), E; reflexivity).
  rewrite El. rewrite app_length. cbn [length]. replace (length (rev r) + 1 - 1)%nat with (length (rev r)) by lia.
  rewrite firstn_length_app. rewrite wr_app by reflexivity. reflexivity.
Qed.

Lemma strncpy_len1 str s : (1 <= length str)%nat -> strncpy str (length str - 1) s = Ret (firstn (length str - 1) (s ++ repeat 0 (length str - 1)) ++ skipn (length str - 1) str).
Proof.
  intros L. unfold strncpy. set (v := firstn _ _).
  assert (Lv : length v = (length str - 1)%nat) by (unfold v; rewrite firstn_length_le; [reflexivity|rewrite app_length, repeat_length; lia]).
  rewrite put_0 by lia. unfold into. rewrite Lv. reflexivity.
Qed.
Lemma amex_ok : octet_ok amex_caps_string amex_reader.
Proof.
  intros b str B S. unfold amex_caps_string. rewrite (Zlen_pos str S).
  assert (L : (1 <= length str)%nat) by (destruct str; [contradiction|cbn [length]; lia]).
  pose proof (byte_sweep (fun b => String.eqb (pick (Z.land b 0xC8) amex_caps "Not Available for Use") (amex_reader b) && negb (String.eqb (amex_reader b) "") && forallb (fun c => negb (c =? 0)) (lit (amex_reader b)))
    ltac:(vm_compute; reflexivity) b B) as Q. cbn beta in Q. apply andb_prop in Q as [Q Q3]. apply andb_prop in Q as [Q1 Q2]. apply String.eqb_eq in Q1. rewrite Q1.
  pose proof (nz_check _ Q3) as N. split.
  - intros _. rewrite strncpy_len1 by exact L. cbn [bind].
    set (s := lit (amex_reader b)) in *. set (w := firstn (length str - 1) (s ++ repeat 0 (length str - 1))).
    assert (Lw : length w = (length str - 1)%nat) by (unfold w; rewrite firstn_length_le; [reflexivity|rewrite app_length, repeat_length; lia]).
    assert (Ln : length (w ++ skipn (length str - 1) str) = length str) by (rewrite app_length, skipn_length; lia).
    rewrite into_cut by lia. cbn [bind]. rewrite Ln.
    assert (Ew : firstn (length str - 1) (w ++ skipn (length str - 1) str) = w) by (rewrite <- Lw; apply firstn_length_app).
    rewrite Ew. eexists. split; [reflexivity|]. split; [rewrite app_length; cbn [length]; lia|].
    destruct (Nat.le_gt_cases (length str - 1) (length s)) as [C|C].
    + assert (E2 : w = firstn (length str - 1) s).
      { unfold w. rewrite firstn_app. replace (length str - 1 - length s)%nat with 0%nat by lia. cbn [firstn]. apply app_nil_r. }
      rewrite E2. apply (cstring_app _ []). apply nz_firstn, N.
    + assert (E2 : w = s ++ repeat 0 (length str - 1 - length s)).
      { unfold w. rewrite firstn_app, firstn_all2 by lia. f_equal.
        replace (length str - 1)%nat with ((length str - 1 - length s) + length s)%nat at 2 by lia. rewrite repeat_app.
        rewrite firstn_app, repeat_length, Nat.sub_diag, firstn_all2 by (rewrite repeat_length; lia). cbn [firstn]. apply app_nil_r. }
      rewrite E2. destruct (length str - 1 - length s)%nat as [|k] eqn:EK; [lia|]. cbn [repeat]. rewrite <- app_assoc. cbn [app].
      rewrite cstring_app by exact N. f_equal. rewrite firstn_all2 by lia. reflexivity.
  - intros E. rewrite E in Q2. discriminate.
Qed.

(** ** Response codes *)
Lemma an_spec x y str : (3 <= length str)%nat ->
  (alnum x = true -> alnum y = true -> exists new, format_an_get_string [x; y] str = Ret (0, new) /\ text_in str new [x; y]) /\
  (alnum x = false \/ alnum y = false -> exists new, format_an_get_string [x; y] str = Ret (1, new) /\ length new = length str).
Proof.
  intros L. destruct (text_cases (fun c => is_num c || is_alpha c) [x; y] str) as (_ & _ & C3 & C4).
  assert (A : forall c, is_num c || is_alpha c = alnum c) by (intros c; unfold is_num, is_alpha, alnum; rewrite Bool.orb_assoc; reflexivity).
  split.
  - intros X Y. apply C3; [discriminate|cbn [length]; lia|]. cbn [forallb]. rewrite !A, X, Y. reflexivity.
  - intros H. apply C4; [discriminate|cbn [length]; lia|]. cbn [forallb]. rewrite !A. destruct H as [-> | ->]; [reflexivity|]. cbn [andb]. apply Bool.andb_false_r.
Qed.
Lemma alnum_nz x : alnum x = true -> x <> 0.
Proof. unfold alnum. lia. Qed.
Lemma arc_nz v d : key_lookup v arc_map = Some d -> nz d.
Proof.
  assert (F : forallb (fun e => forallb (fun c => negb (c =? 0)) (lit (snd e))) arc_map = true) by (vm_compute; reflexivity).
  revert F. generalize arc_map. intros t. induction t as [|[k s] t IH]; intros F E; [discriminate|].
  cbn [forallb snd] in F. apply andb_prop in F as [F1 F]. cbn [key_lookup] in E. destruct (list_eqb (lit k) v); [injection E as <-; apply nz_check, F1|apply IH; assumption].
Qed.
Lemma arc_shown x y str : (3 <= length str)%nat -> alnum x = true -> alnum y = true ->
  exists new, arc_string [x; y] str = Ret (0, new) /\
    shown str new ([x; y] ++ match key_lookup [x; y] arc_map with
                             | Some d => if (length str <? 10)%nat then [] else lit " - " ++ d
                             | None => [] end).
Proof.
  intros L X Y. unfold arc_string. change (Zlen [x; y]) with 2. cbn [Z.eqb Pos.eqb negb].
  assert (S : str <> []) by (destruct str; [cbn in L; lia|discriminate]). rewrite (Zlen_pos str S).
  destruct (wr0 str S) as (t & E & Lt). rewrite E. cbn [bind]. unfold Zlen. rewrite Lt.
  destruct (Z.ltb_spec (Z.of_nat (length str)) 3); [lia|].
  destruct (an_spec x y (0 :: t)) as [A _]; [lia|]. destruct (A X Y) as (n1 & E1 & T1). rewrite E1. cbn [bind Z.eqb negb].
  destruct T1 as [TL T1]. assert (Ln : length n1 = length str).
  { rewrite T1. rewrite app_length. cbn [length]. rewrite skipn_length. rewrite Lt. cbn [length] in TL. lia. }
  rewrite Ln. assert (Nxy : nz [x; y]) by (repeat (constructor; [apply alnum_nz; assumption|]); constructor).
  assert (Alone : shown str n1 ([x; y] ++ [])).
  { split; [exact Ln|]. rewrite T1, app_nil_r. rewrite firstn_all2 by (cbn [length]; lia). apply cstring_app, Nxy. }
  replace (Z.of_nat (length str) <? 10) with (length str <? 10)%nat by (destruct (Nat.ltb_spec (length str) 10), (Z.ltb_spec (Z.of_nat (length str)) 10); lia).
  destruct (length str <? 10)%nat eqn:TEN.
  { exists n1. split; [reflexivity|]. destruct (key_lookup [x; y] arc_map); exact Alone. }
  apply Nat.ltb_ge in TEN. destruct (key_lookup [x; y] arc_map) as [d|] eqn:K; [|exists n1; split; [reflexivity|exact Alone]].
  unfold snprintf. destruct (length str - 2)%nat as [|m] eqn:EM; [lia|].
  set (s := lit " - " ++ d). assert (Ns : nz s) by (apply nz_app; [apply nz_lit; reflexivity|apply (arc_nz _ _ K)]).
  set (w := firstn m s ++ [0]). assert (Lw : (length w <= Datatypes.S m)%nat) by (unfold w; rewrite app_length, firstn_length; cbn [length]; lia).
  rewrite put_Ret by lia. cbn [bind]. eexists. split; [reflexivity|].
  assert (E2 : firstn 2 n1 = [x; y]) by (rewrite T1; reflexivity). rewrite E2.
  split.
  - rewrite !app_length, skipn_length. cbn [length]. lia.
  - unfold w. replace ([x; y] ++ (firstn m s ++ [0]) ++ skipn (2 + length (firstn m s ++ [0])) n1) with
      (([x; y] ++ firstn m s) ++ 0 :: skipn (2 + length (firstn m s ++ [0])) n1) by (rewrite <- !app_assoc; reflexivity).
    rewrite cstring_app by (apply nz_app; [exact Nxy|apply nz_firstn, Ns]). f_equal.
    rewrite (firstn_app (length str - 1)), (firstn_all2 [x; y]) by (cbn [length]; lia). f_equal. f_equal. cbn [length]. lia.
Qed.
Lemma arc_bad v str : (3 <= length str)%nat -> v <> [] -> Zlen v <> 2 \/ forallb alnum v = false ->
  exists r new, arc_string v str = Ret (r, new) /\ 0 < r /\ shown str new [].
Proof.
  intros L V H. unfold arc_string. rewrite (Zlen_pos v V).
  assert (S : str <> []) by (destruct str; [cbn in L; lia|discriminate]). rewrite (Zlen_pos str S).
  destruct (wr0 str S) as (t & E & Lt). rewrite E. cbn [bind].
  assert (Lt' : Zlen (0 :: t) = Z.of_nat (length str)) by (unfold Zlen; rewrite Lt; reflexivity). rewrite Lt'.
  destruct (Z.ltb_spec (Z.of_nat (length str)) 3); [lia|].
  assert (Sh : forall l, length (0 :: l) = length str -> shown str (0 :: l) []).
  { intros l Ll. split; [exact Ll|]. rewrite firstn_nil. reflexivity. }
  destruct (Z.eqb_spec (Zlen v) 2) as [E2|E2]; cbn [negb].
  - destruct H as [H|H]; [contradiction|]. destruct v as [|x [|y [|]]]; try (unfold Zlen in E2; cbn [length] in E2; lia).
    destruct (an_spec x y (0 :: t)) as [_ A]; [lia|]. destruct A as (n1 & E1 & L1).
    { cbn [forallb] in H. rewrite Bool.andb_true_r in H. apply Bool.andb_false_iff in H. exact H. }
    rewrite E1. cbn [bind Z.eqb Pos.eqb negb]. destruct (wr0 n1) as (t2 & E3 & L3); [destruct n1; [cbn in L1; lia|discriminate]|].
    rewrite E3. cbn [bind]. exists 1, (0 :: t2). split; [reflexivity|]. split; [lia|]. apply Sh. congruence.
  - exists 1, (0 :: t). split; [reflexivity|]. split; [lia|]. apply Sh, Lt.
Qed.
Lemma common_found : forallb (fun e => oeqb (key_lookup (lit (fst e)) arc_map) (Some (lit (snd e)))) common_codes = true.
Proof. vm_compute. reflexivity. Qed.
Lemma common_shape : forallb (fun e => match lit (fst e) with [x; y] => alnum x && alnum y | _ => false end) common_codes = true.
Proof. vm_compute. reflexivity. Qed.
Lemma arc_common k d str : In (k, d) common_codes -> (10 <= length str)%nat ->
  exists new, arc_string (lit k) str = Ret (0, new) /\ shown str new (lit k ++ lit " - " ++ lit d).
Proof.
  intros I L. pose proof common_found as F. rewrite forallb_forall in F. specialize (F _ I). cbn [fst snd] in F. apply oeqb_eq in F.
  pose proof common_shape as G. rewrite forallb_forall in G. specialize (G _ I). cbn [fst] in G.
  destruct (lit k) as [|x [|y [|]]]; try discriminate. apply andb_prop in G as [X Y].
  destruct (arc_shown x y str) as (new & E & Sh); [lia|assumption..|]. exists new. split; [exact E|]. rewrite F in Sh.
  destruct (Nat.ltb_spec (length str) 10); [lia|]. exact Sh.
Qed.

(** ** Issuer authentication data *)
Definition T_csu_code : list row :=
  T_csu_before ++ Val 2 2 1 [(0, "Card Status Update (CSU): Do Not Update Offline Counters");
             (1, "ard Status Update (CSU): Set Offline Counters to Upper Offline Limits");
             (2, "Card Status Update (CSU): Reset Offline Counters to Zero");
             (3, "Card Status Update (CSU): Add Transaction to Offline Counter")] "" :: T_csu_after.
Definition csu_groups : list (list stmt) :=
  map (fun s => [s]) (firstn 8 csu_prog) ++ [firstn 4 (skipn 8 csu_prog)] ++ map (fun s => [s]) (skipn 12 csu_prog).
Lemma csu_run d : bytes d -> length d = 4%nat -> run d csu_prog = Ret (table_texts T_csu_code d).
Proof.
  intros B L. apply (groups_run_table 4 d csu_groups); [exact B|unfold Zlen; lia|vm_compute; reflexivity|reflexivity].
Qed.
Lemma csu_same d : range (octet d 2) 2 1 <> 1 -> table_texts T_csu_code d = table_texts T_csu d.
Proof.
  intros R. unfold T_csu_code, T_csu. rewrite !table_app. f_equal. unfold table_texts. cbn [flat_map]. f_equal.
  unfold T_csu_counters. cbn [row_texts chosen]. destruct (range (octet d 2) 2 1 =? 0); [reflexivity|].
  destruct (Z.eqb_spec (range (octet d 2) 2 1) 1); [contradiction|reflexivity].
Qed.

Definition upper_line : list Z := lit "Card Status Update (CSU): Set Offline Counters to Upper Offline Limits".
Lemma csu_upper d : ~ In upper_line (table_texts T_csu d) -> range (octet d 2) 2 1 <> 1.
Proof.
  intros N R. apply N. unfold T_csu. rewrite table_app. apply in_or_app. right. unfold table_texts. cbn [flat_map]. apply in_or_app. left.
  unfold T_csu_counters. cbn [row_texts]. rewrite R. left. reflexivity.
Qed.
Lemma app_len2 {A} (a b : list A) : forall c d, length a = length c -> a ++ b = c ++ d -> a = c /\ b = d.
Proof.
  induction a as [|x a IH]; intros [|y c] d L E; cbn [length] in L; try discriminate; [split; [reflexivity|exact E]|].
  injection E as -> E. injection L as L. destruct (IH c d L E) as [-> ->]. split; reflexivity.
Qed.
Lemma arpc_text c : bytes c -> lit "Authorisation Response Cryptogram (ARPC): " ++ flat_map p_02X c = arpc_line c.
Proof. intros B. unfold arpc_line. rewrite hex_02X by exact B. reflexivity. Qed.
Lemma rd_mid (a : list Z) x b : rd (a ++ x :: b) (length a) = Ret x.
Proof. apply rd_app_mid; reflexivity. Qed.
Lemma sub_front (a b : list Z) n : length a = n -> sub (a ++ b) 0 n = Ret a.
Proof. intros <-. apply (sub_mid [] a b). Qed.
Lemma sub_back (a b : list Z) n m : length a = n -> length b = m -> sub (a ++ b) n m = Ret b.
Proof. intros <- <-. pose proof (sub_mid a b []) as H. rewrite app_nil_r in H. exact H. Qed.
Lemma p_s_text junk new x y : text_in junk new [x; y] -> x <> 0 -> y <> 0 -> p_s new = Ret [x; y].
Proof. intros [_ ->] X Y. apply p_s_ok. repeat (constructor; [assumption|]). constructor. Qed.

Lemma issuer_listed junk iad t str : length junk = 3%nat -> bytes iad -> str <> [] -> issuer_auth iad t -> ~ In upper_line t ->
  exists new, issuer_auth_list junk iad str = Ret (0, new) /\ in_lines str new t.
Proof.
  intros J B S I U. destruct I as [c x y Lc X Y|c x y Lc X|c csu more Lc Ls Lm N R1 R3].
  - assert (L : Zlen (c ++ [x; y]) = 10) by (unfold Zlen; rewrite app_length, Lc; reflexivity).
    unfold issuer_auth_list. rewrite L, (Zlen_pos str S). cbn [Z.eqb Pos.eqb Z.ltb Z.gtb Z.compare Pos.compare Pos.compare_cont orb].
    rewrite (sub_back c [x; y] 8 2 Lc eq_refl). cbn [bind]. destruct (an_spec x y junk) as [A _]; [lia|]. destruct (A X Y) as (n1 & E1 & T1). rewrite E1. cbn [bind Z.eqb].
    rewrite (sub_front c [x; y] 8 Lc). cbn [bind]. rewrite (p_s_text _ _ _ _ T1) by (apply alnum_nz; assumption). cbn [bind].
    apply bytes_app in B as [Bc _]. rewrite (arpc_text c Bc). apply emit_listed. repeat (apply full_cons; [discriminate|]). constructor.
  - assert (L : Zlen (c ++ [x; y]) = 10) by (unfold Zlen; rewrite app_length, Lc; reflexivity).
    apply bytes_app in B as [Bc Bx]. assert (B0 : is_byte x) by (inversion Bx; assumption). assert (B1 : is_byte y) by (inversion Bx as [|? ? ? B']; inversion B'; assumption).
    unfold issuer_auth_list. rewrite L, (Zlen_pos str S). cbn [Z.eqb Pos.eqb Z.ltb Z.gtb Z.compare Pos.compare Pos.compare_cont orb].
    rewrite (sub_back c [x; y] 8 2 Lc eq_refl). cbn [bind]. destruct (an_spec x y junk) as [_ A]; [lia|].
    destruct A as (n1 & E1 & L1); [left; unfold is_byte in B0; unfold alnum; lia|]. rewrite E1. cbn [bind Z.eqb Pos.eqb].
    assert (R8 : rd (c ++ [x; y]) 8 = Ret x) by (replace 8%nat with (length c) by exact Lc; apply rd_mid). rewrite R8. cbn [bind].
    assert (Q : Z.land x 0xF0 =? 0 = true).
    { pose proof (byte_sweep (fun b => (16 <=? b) || (Z.land b 0xF0 =? 0)) ltac:(vm_compute; reflexivity) x B0) as Q. cbn beta in Q. apply orb_prop in Q as [Q|Q]; [lia|exact Q]. }
    rewrite Q. rewrite (sub_front c [x; y] 8 Lc). cbn [bind].
    assert (R9 : rd (c ++ [x; y]) 9 = Ret y).
    { replace (c ++ [x; y]) with ((c ++ [x]) ++ [y]) by (rewrite <- app_assoc; reflexivity). replace 9%nat with (length (c ++ [x])) by (rewrite app_length, Lc; reflexivity). apply rd_mid. }
    rewrite R9. cbn [bind]. rewrite (arpc_text c Bc).
    replace (p_02X x ++ p_02X y) with (hex_text [x; y]) by (rewrite <- (hex_02X [x; y]) by (repeat (constructor; [assumption|]); constructor); cbn [flat_map]; rewrite app_nil_r; reflexivity).
    apply emit_listed. repeat (apply full_cons; [discriminate|]). constructor.
  - assert (L : Zlen (c ++ csu ++ more) = 8 + Zlen more) by (unfold Zlen; rewrite !app_length, Lc, Ls; lia).
    apply bytes_app in B as [Bc B]. apply bytes_app in B as [Bs Bm].
    assert (M : 0 <= Zlen more <= 8) by (unfold Zlen; lia).
    destruct csu as [|s1 [|s2 [|s3 [|s4 [|]]]]]; cbn [length] in Ls; try lia. clear Ls.
    assert (C : exists new,
      (let* a := rd (c ++ [s1; s2; s3; s4] ++ more) 4 in
       let* c0 := rd (c ++ [s1; s2; s3; s4] ++ more) 6 in
       if (Z.land a 0x70 =? 0) && (Z.land c0 0xFF =? 0) then
         let* h := (let* x := sub (c ++ [s1; s2; s3; s4] ++ more) 0 4 in Ret (lit "Authorisation Response Cryptogram (ARPC): " ++ flat_map p_02X x)) in
         let* d := sub (c ++ [s1; s2; s3; s4] ++ more) 4 4 in
         let* t := run d csu_prog in
         let* x :=
          (if 8 + Zlen more >? 8 then
             if negb (Z.land a 0x80 =? 0) then Ret [lit "Proprietary Authentication Data: " ++ p_dec (8 + Zlen more - 8) ++ lit " bytes"]
             else if 8 + Zlen more =? 10 then
               let* y := sub (c ++ [s1; s2; s3; s4] ++ more) 8 2 in
               let* (r, s) := format_an_get_string y junk in
               if r =? 0 then let* s := p_s s in Ret [lit "Authorisation Response Code: " ++ s] else Ret []
             else Ret []
           else Ret []) in
         emit 0 (h :: t ++ x) str
       else emit 0 [] str) = Ret (0, new) /\
      in_lines str new (arpc_line c :: table_texts T_csu [s1; s2; s3; s4] ++
        (if bit (octet [s1; s2; s3; s4] 1) 8 && negb (Zlen more =? 0) then [lit "Proprietary Authentication Data: " ++ decimal_text (Zlen more) ++ lit " bytes"] else []))).
    { assert (R4 : rd (c ++ [s1; s2; s3; s4] ++ more) 4 = Ret s1) by (replace 4%nat with (length c) by exact Lc; apply (rd_mid c s1)).
      assert (R6 : rd (c ++ [s1; s2; s3; s4] ++ more) 6 = Ret s3).
      { replace (c ++ [s1; s2; s3; s4] ++ more) with ((c ++ [s1; s2]) ++ s3 :: s4 :: more) by (rewrite <- app_assoc; reflexivity).
        replace 6%nat with (length (c ++ [s1; s2])) by (rewrite app_length, Lc; reflexivity). apply rd_mid. }
      rewrite R4, R6. cbn [bind]. change (octet [s1; s2; s3; s4] 1) with s1 in *. change (octet [s1; s2; s3; s4] 3) with s3 in R3. subst s3.
      assert (B1 : is_byte s1) by (inversion Bs; assumption).
      pose proof (byte_sweep (fun b => negb (range b 7 5 =? 0) || (Z.land b 0x70 =? 0)) ltac:(vm_compute; reflexivity) s1 B1) as Q. cbn beta in Q. rewrite R1 in Q. cbn [Z.eqb negb orb] in Q.
      pose proof (byte_sweep (fun b => Bool.eqb (negb (Z.land b 0x80 =? 0)) (bit b 8)) ltac:(vm_compute; reflexivity) s1 B1) as Q8. cbn beta in Q8. apply Bool.eqb_prop in Q8.
      rewrite Q, Q8. change (Z.land 0 0xFF =? 0) with true. cbn [andb]. rewrite (sub_front c _ 4 Lc). cbn [bind]. rewrite (arpc_text c Bc).
      assert (S4 : sub (c ++ [s1; s2; 0; s4] ++ more) 4 4 = Ret [s1; s2; 0; s4]) by (pose proof (sub_mid c [s1; s2; 0; s4] more) as X; rewrite Lc in X; exact X).
      rewrite S4. cbn [bind]. rewrite (csu_run _ Bs eq_refl). cbn [bind]. rewrite csu_same.
      2: { apply csu_upper. intros I. apply U. right. apply in_or_app. left. exact I. }
      assert (F : full (arpc_line c :: table_texts T_csu [s1; s2; 0; s4] ++
        (if bit s1 8 && negb (Zlen more =? 0) then [lit "Proprietary Authentication Data: " ++ decimal_text (Zlen more) ++ lit " bytes"] else []))).
      { apply full_cons; [discriminate|]. apply full_app; [apply full_table; reflexivity|]. destruct (bit s1 8 && _); [apply full_cons; [discriminate|constructor]|constructor]. }
      destruct (Z.eqb_spec (Zlen more) 0) as [Z0|Z0].
      - rewrite Z0. cbn [Z.add Z.gtb Z.compare Pos.compare Pos.compare_cont bind]. rewrite Bool.andb_false_r in *. apply emit_listed, F.
      - replace (8 + Zlen more >? 8) with true by lia. cbn [negb andb] in *. rewrite Bool.andb_true_r in *. replace (8 + Zlen more - 8) with (Zlen more) by lia.
        destruct (bit s1 8).
        + cbn [bind]. replace (p_dec (Zlen more)) with (decimal_text (Zlen more)) by (symmetry; apply p_dec_text; lia). apply emit_listed, F.
        + destruct (Z.eqb_spec (8 + Zlen more) 10) as [E2|E2]; [|cbn [bind]; apply emit_listed, F].
          assert (L2 : length more = 2%nat) by (unfold Zlen in E2; lia). destruct more as [|x [|y [|]]]; cbn [length] in L2; try lia.
          assert (S8 : sub (c ++ [s1; s2; 0; s4] ++ [x; y]) 8 2 = Ret [x; y]).
          { rewrite app_assoc. apply sub_back; [rewrite app_length, Lc; reflexivity|reflexivity]. }
          rewrite S8. cbn [bind]. destruct (an_spec x y junk) as [_ A]; [lia|]. destruct A as (n1 & E1 & L1).
          { cbn [nth] in N. destruct (alnum x) eqn:AX; [|left; reflexivity]. destruct (alnum y) eqn:AY; [|right; reflexivity]. exfalso. apply N. split; [reflexivity|left; split; reflexivity]. }
          rewrite E1. cbn [bind Z.eqb Pos.eqb]. apply emit_listed, F. }
    unfold issuer_auth_list. rewrite L, (Zlen_pos str S).
    destruct (Z.eqb_spec (8 + Zlen more) 0) as [|_]; [lia|]. destruct ((8 + Zlen more <? 8) || (8 + Zlen more >? 32)) eqn:G; [lia|].
    destruct (Z.eqb_spec (8 + Zlen more) 10) as [E2|E2]; [|exact C].
    assert (L2 : length more = 2%nat) by (unfold Zlen in E2; lia). destruct more as [|x [|y [|]]]; cbn [length] in L2; try lia. clear L2.
    assert (Lcs : length (c ++ [s1; s2; s3; s4]) = 8%nat) by (rewrite app_length, Lc; reflexivity).
    assert (S8 : sub (c ++ [s1; s2; s3; s4] ++ [x; y]) 8 2 = Ret [x; y]) by (rewrite app_assoc; apply sub_back; [exact Lcs|reflexivity]).
    rewrite S8 in C |- *. cbn [bind] in C |- *. destruct (an_spec x y junk) as [_ A]; [lia|]. destruct A as (n1 & E1 & L1).
    { cbn [nth] in N. destruct (alnum x) eqn:AX; [|left; reflexivity]. destruct (alnum y) eqn:AY; [|right; reflexivity]. exfalso. apply N. split; [reflexivity|left; split; reflexivity]. }
    rewrite E1 in C |- *. cbn [bind] in C |- *. change (1 =? 0) with false in C |- *. cbn [bind] in C |- *.
    assert (R8 : rd (c ++ [s1; s2; s3; s4] ++ [x; y]) 8 = Ret x) by (rewrite app_assoc; replace 8%nat with (length (c ++ [s1; s2; s3; s4])) by exact Lcs; apply rd_mid).
    rewrite R8. cbn [bind].
    assert (B0 : is_byte x) by (inversion Bm; assumption).
    assert (Q : Z.land x 0xF0 =? 0 = false).
    { pose proof (byte_sweep (fun b => (b <? 16) || negb (Z.land b 0xF0 =? 0)) ltac:(vm_compute; reflexivity) x B0) as Q. cbn beta in Q. apply orb_prop in Q as [Q|Q].
      - exfalso. apply N. cbn [nth]. split; [reflexivity|right; lia].
      - destruct (Z.land x 0xF0 =? 0); [discriminate|reflexivity]. }
    rewrite Q. exact C.
Qed.
(** Other lengths, and every value up to 32 octets is safe. *)
Lemma an_total v str : exists r new, format_an_get_string v str = Ret (r, new) /\ length new = length str.
Proof.
  destruct (text_cases (fun c => is_num c || is_alpha c) v str) as (C1 & C2 & C3 & C4). unfold format_an_get_string.
  destruct v as [|x v]; [rewrite C1 by (left; reflexivity); eauto|]. destruct str as [|s str]; [rewrite C1 by (right; reflexivity); eauto|].
  destruct (Nat.le_gt_cases (length (s :: str)) (length (x :: v))) as [L|L]; [rewrite C2 by (discriminate || exact L); eauto|].
  destruct (forallb (fun c => is_num c || is_alpha c) (x :: v)) eqn:F.
  - destruct C3 as (new & -> & T & ->); [discriminate|exact L|reflexivity|]. eexists _, _. split; [reflexivity|]. rewrite app_length, !skipn_length || idtac.
    rewrite app_length. cbn [length] in *. rewrite skipn_length. cbn [length]. lia.
  - destruct C4 as (new & -> & T); [discriminate|exact L|reflexivity|]. eauto.
Qed.
Lemma emit_total r t str : exists new, emit r t str = Ret (r, new) /\ length new = length str.
Proof.
  destruct (emv_list' t str) as (itr & c & E & _ & _ & T & O). unfold emit. rewrite E. cbn [bind]. exists (s_buf itr). split; [reflexivity|].
  destruct t as [|x t]; [rewrite O by (left; reflexivity); reflexivity|].
  destruct (Nat.le_gt_cases 3 (length str)) as [L|L]; [|rewrite O by (right; exact L); reflexivity].
  destruct T as [Tl ->]; [discriminate|exact L|]. rewrite app_length. cbn [length]. rewrite skipn_length. lia.
Qed.
Lemma issuer_safe junk iad str : length junk = 3%nat -> bytes iad ->
  exists r new, issuer_auth_list junk iad str = Ret (r, new) /\ length new = length str /\ ((length iad < 8 \/ 32 < length iad)%nat -> str <> [] -> r <> 0 /\ new = str).
Proof.
  intros J B. unfold issuer_auth_list.
  destruct (Z.eqb_spec (Zlen iad) 0) as [|NZ]; [eexists _, _; split; [reflexivity|split; [reflexivity|]]; intros _ _; split; [lia|reflexivity]|].
  destruct (Z.eqb_spec (Zlen str) 0) as [Z0|_]; [eexists _, _; split; [reflexivity|split; [reflexivity|]]; intros _ S; exfalso; apply (Zlen_pos) in S; lia|].
  destruct ((Zlen iad <? 8) || (Zlen iad >? 32)) eqn:G; [eexists _, _; split; [reflexivity|split; [reflexivity|]]; intros _ _; split; [lia|reflexivity]|].
  assert (L : (8 <= length iad <= 32)%nat) by (unfold Zlen in G; lia).
  cut (forall m, (exists new, m = Ret (0, new) /\ length new = length str) ->
     exists r new, m = Ret (r, new) /\ length new = length str /\ ((length iad < 8 \/ 32 < length iad)%nat -> str <> [] -> r <> 0 /\ new = str)).
  2: { intros m (new & -> & Ln). exists 0, new. split; [reflexivity|]. split; [exact Ln|]. intros; lia. }
  intros K. apply K. clear K G.
  assert (E4 : exists d, sub iad 4 4 = Ret d /\ bytes d /\ length d = 4%nat).
  { rewrite sub_Ret by lia. eexists. split; [reflexivity|]. split; [apply bytes_firstn, bytes_skipn, B|]. rewrite firstn_length, skipn_length. lia. }
  destruct E4 as (d & E4 & Bd & Ld).
  assert (E0 : sub iad 0 4 = Ret (firstn 4 iad)) by (rewrite sub_Ret by lia; reflexivity).
  assert (E8 : sub iad 0 8 = Ret (firstn 8 iad)) by (rewrite sub_Ret by lia; reflexivity).
  rewrite (rd_nth iad 4), (rd_nth iad 6) by lia. rewrite E4, E0, E8. cbn [bind]. rewrite (csu_run d Bd Ld). cbn [bind].
  assert (AN : forall x y, exists r s, format_an_get_string [x; y] junk = Ret (r, s) /\ (r = 0 -> exists w, p_s s = Ret w)).
  { intros x y. destruct (an_spec x y junk) as [A1 A2]; [lia|]. destruct (alnum x) eqn:AX; [destruct (alnum y) eqn:AY|].
    - destruct (A1 eq_refl eq_refl) as (n & E & T). exists 0, n. split; [exact E|]. intros _. eexists. apply (p_s_text _ _ _ _ T); apply alnum_nz; assumption.
    - destruct (A2 (or_intror eq_refl)) as (n & E & T). exists 1, n. split; [exact E|discriminate].
    - destruct (A2 (or_introl eq_refl)) as (n & E & T). exists 1, n. split; [exact E|discriminate]. }
  destruct (Z.eqb_spec (Zlen iad) 10) as [E10|E10].
  - assert (S8 : exists x y, sub iad 8 2 = Ret [x; y]).
    { rewrite sub_Ret by (unfold Zlen in E10; lia). assert (Ls : length (skipn 8 iad) = 2%nat) by (rewrite skipn_length; unfold Zlen in E10; lia).
      destruct (skipn 8 iad) as [|x [|y [|]]]; cbn [length] in Ls; try lia. exists x, y. reflexivity. }
    destruct S8 as (x & y & S8). rewrite S8. cbn [bind]. destruct (AN x y) as (r & s & -> & P). cbn [bind].
    rewrite !rd_nth by (unfold Zlen in E10; lia). cbn [bind].
    destruct (Z.eqb_spec r 0) as [R|R].
    + destruct (P R) as (w & ->). cbn [bind]. apply emit_total.
    + destruct (Z.land (nth 8 iad 0) 0xF0 =? 0); [apply emit_total|].
      destruct ((Z.land (nth 4 iad 0) 112 =? 0) && (Z.land (nth 6 iad 0) 255 =? 0)); [|apply emit_total].
      destruct (Zlen iad >? 8); cbn [bind]; [|apply emit_total]. destruct (negb _); cbn [bind]; apply emit_total.
  - destruct ((Z.land (nth 4 iad 0) 112 =? 0) && (Z.land (nth 6 iad 0) 255 =? 0)); [|apply emit_total].
    destruct (Zlen iad >? 8); cbn [bind]; [|apply emit_total]. destruct (negb _); cbn [bind]; apply emit_total.
Qed.
