(** Safety of the description of fields. *)
From Coq Require Import String.
From Verif Require Import Base BaseLemmas TlvModel StrModel CapduModel FieldsModel FlagsModel TlvSpec BerSpec FieldsSpec StrSpec CapduSpec
  FlagsSpec StrProofs CapduProofs FieldsProofs FlagsProofs FlagsTexts FlagsMore FlagsData FlagsAuth InfoModel InfoSpec.
Open Scope string_scope.
Open Scope Z_scope.
Open Scope list_scope.
Notation length := List.length.

(** ** Every function leaves a string *)
Definition kept (str new : list Z) : Prop := length new = length str /\ In 0 new.
Definition fine_at (f : list Z -> list Z -> out (Z * list Z)) (v t : list Z) : Prop :=
  exists r new, f v (0 :: t) = Ret (r, new) /\ kept (0 :: t) new.
Definition fine (f : list Z -> list Z -> out (Z * list Z)) : Prop := forall v t, bytes v -> fine_at f v t.
Definition fine1 (f : Z -> list Z -> out (Z * list Z)) : Prop :=
  forall b t, is_byte b -> exists r new, f b (0 :: t) = Ret (r, new) /\ kept (0 :: t) new.

Lemma kept_same t : kept (0 :: t) (0 :: t).
Proof. split; [reflexivity|left; reflexivity]. Qed.
Lemma kept_in str new : In 0 new -> length new = length str -> kept str new.
Proof. split; assumption. Qed.
Lemma kept_trans a b c : kept a b -> kept b c -> kept a c.
Proof. intros [L _] [L' N]. split; [congruence|exact N]. Qed.
Lemma cstring_in new s : cstring new = Some s -> In 0 new.
Proof.
  revert s. induction new as [|c new IH]; intros s; cbn [cstring]; [discriminate|].
  destruct (Z.eqb_spec c 0) as [->|]; [left; reflexivity|]. destruct (cstring new); [right; eauto|discriminate].
Qed.
Lemma in_cstring new : In 0 new -> exists s, cstring new = Some s.
Proof.
  induction new as [|c new IH]; intros H; [destruct H|]. cbn [cstring]. destruct (Z.eqb_spec c 0); [eauto|].
  destruct H as [->|H]; [contradiction|]. destruct (IH H) as (s & ->). eauto.
Qed.
Lemma kept_shown str new s : shown str new s -> kept str new.
Proof. intros [L C]. split; [exact L|eapply cstring_in; exact C]. Qed.
Lemma kept_text str new c : text_in str new c -> kept str new.
Proof. intros [L ->]. split; [|apply in_or_app; right; left; reflexivity]. rewrite app_length. cbn [length]. rewrite skipn_length. lia. Qed.
Lemma kept_lines t new texts : in_lines (0 :: t) new texts -> kept (0 :: t) new.
Proof.
  intros (c & _ & _ & T & O). destruct texts as [|x texts]; [rewrite O by (left; reflexivity); apply kept_same|].
  destruct (Nat.le_gt_cases 3 (length (0 :: t))) as [L|L]; [|rewrite O by (right; exact L); apply kept_same].
  eapply kept_text, T; [discriminate|exact L].
Qed.
Lemma emit_kept r texts t : exists new, emit r texts (0 :: t) = Ret (r, new) /\ kept (0 :: t) new.
Proof.
  destruct (emv_list' texts (0 :: t)) as (itr & c & E & _ & _ & T & O). unfold emit. rewrite E. cbn [bind]. exists (s_buf itr). split; [reflexivity|].
  destruct texts as [|x texts]; [rewrite O by (left; reflexivity); apply kept_same|].
  destruct (Nat.le_gt_cases 3 (length (0 :: t))) as [L|L]; [|rewrite O by (right; exact L); apply kept_same].
  eapply kept_text, T; [discriminate|exact L].
Qed.
Lemma wr0_kept t : wr (0 :: t) 0 0 = Ret (0 :: t).
Proof. reflexivity. Qed.
Lemma wr_first c t : wr (c :: t) 0 0 = Ret (0 :: t).
Proof. reflexivity. Qed.
Lemma copy_text_ok s str : str <> [] -> exists new, copy_text s str = Ret (0, new) /\ kept str new /\ (nz s -> shown str new s).
Proof.
  intros S. assert (L : (1 <= length str)%nat) by (destruct str; [contradiction|cbn [length]; lia]).
  unfold copy_text. rewrite strncpy_len1 by exact L. cbn [bind]. set (x := firstn _ _ ++ _).
  assert (Lx : length x = length str).
  { unfold x. rewrite app_length, firstn_length_le by (rewrite app_length, repeat_length; lia). rewrite skipn_length. lia. }
  rewrite Lx. assert (W : wr x (length str - 1) 0 = Ret (firstn (length str - 1) x ++ [0])) by (rewrite <- Lx; apply into_cut; lia).
  rewrite W. cbn [bind]. eexists. split; [reflexivity|].
  assert (LN : length (firstn (length str - 1) x ++ [0]) = length str) by (rewrite app_length, firstn_length_le by lia; cbn [length]; lia).
  split; [split; [exact LN|apply in_or_app; right; left; reflexivity]|].
  intros N. split; [exact LN|].
  unfold x. rewrite firstn_app_eq by (rewrite firstn_length_le; [reflexivity|rewrite app_length, repeat_length; lia]).
  destruct (Nat.le_gt_cases (length s) (length str - 1)) as [G|G].
  - rewrite firstn_app, (firstn_all2 (n := length str - 1) s), <- app_assoc by lia.
    assert (E : exists u, firstn (length str - 1 - length s) (repeat 0 (length str - 1)) ++ [0] = 0 :: u).
    { destruct (length str - 1 - length s)%nat as [|k]; [exists []; reflexivity|]. destruct (length str - 1)%nat; [exists []; reflexivity|].
      cbn [repeat firstn app]. eauto. }
    destruct E as (u & ->). apply cstring_app. exact N.
  - rewrite firstn_app. replace (length str - 1 - length s)%nat with 0%nat by lia. rewrite firstn_O, app_nil_r.
    apply cstring_app. apply nz_firstn; exact N.
Qed.

(** ** Bit fields *)
Definition stmt_in (n : Z) (s : stmt) : bool :=
  match s with
  | If c _ _ => forallb (fun x => (0 <=? fst x) && (fst x <? n)) c
  | Sw i _ _ _ => (0 <=? i) && (i <? n)
  | Nm _ i _ _ _ _ _ => (0 <=? i) && (i <? n)
  end.
Lemma run_total n v p : n <= Zlen v -> forallb (stmt_in n) p = true -> exists t, run v p = Ret t.
Proof.
  intros L. induction p as [|s p IH]; intros F; [eexists; reflexivity|]. cbn [forallb] in F. apply andb_prop in F as [F1 F].
  destruct (IH F) as (t & E). cbn [run].
  assert (X : exists a, exec v s = Ret a).
  { destruct s as [c yes no|i m cases other|c i m k pre f post]; cbn [exec stmt_in] in *.
    - assert (Y : exists b, any v c = Ret b).
      { induction c as [|[i m] c IHc]; [eexists; reflexivity|]. cbn [forallb fst] in F1. apply andb_prop in F1 as [F0 F1]. cbn [any].
        rewrite rd_octet by lia. cbn [bind]. destruct (negb _); [eexists; reflexivity|apply IHc, F1]. }
      destruct Y as (b & ->). eexists; reflexivity.
    - rewrite rd_octet by lia. eexists; reflexivity.
    - rewrite rd_octet by lia. eexists; reflexivity. }
  destruct X as (a & ->). rewrite E. eexists; reflexivity.
Qed.
Lemma field_fine strict n p : forallb (stmt_in n) p = true -> fine (field_list strict n p).
Proof.
  intros F v t _. unfold fine_at, field_list. change (Zlen (0 :: t) =? 0) with false. cbn match.
  destruct (Zlen v =? 0); [eauto using kept_same|]. destruct (Z.eqb_spec (Zlen v) n) as [E|]; [|cbn [negb]; eauto using kept_same].
  destruct (run_total n v p ltac:(lia) F) as (x & ->). cbn [bind negb]. destruct (emit_kept 0 x t) as (new & -> & K). eauto.
Qed.
Lemma ffi_fine : fine ffi_list.
Proof.
  intros v t _. unfold fine_at, ffi_list. change (Zlen (0 :: t) =? 0) with false. cbn match.
  destruct (Zlen v =? 0); [eauto using kept_same|]. destruct (Z.eqb_spec (Zlen v) 4) as [E|]; [|cbn [negb]; eauto using kept_same].
  cbn [negb]. rewrite rd_nth by (unfold Zlen in E; lia). cbn [bind].
  destruct (negb _).
  - destruct (emit_kept 0 [lit "Form Factor Indicator (FFI): Version Number " ++ p_dec (Z.shiftr (nth 0 v 0) 5)] t) as (new & -> & K). eauto.
  - destruct (run_total 4 v ffi_prog ltac:(lia) ltac:(vm_compute; reflexivity)) as (x & ->). cbn [bind]. destruct (emit_kept 0 x t) as (new & -> & K). eauto.
Qed.
Ltac step := first [rewrite rd_nth by (unfold Zlen in *; lia); cbn [bind]
                   | match goal with |- exists r t, (if ?b then _ else _) = Ret (r, t) => destruct b eqn:?; try solve [eauto] end].
Ltac ran n := match goal with |- context [run ?v ?p] =>
  let x := fresh "x" in let X := fresh "X" in destruct (run_total n v p) as (x & X); [unfold Zlen in *; lia|vm_compute; reflexivity|rewrite X; cbn [bind]] end.
Lemma ccd_total iad : exists r t, FlagsModel.iad_ccd iad = Ret (r, t).
Proof. unfold FlagsModel.iad_ccd. repeat step; try (ran 32; eauto). all: eauto. Qed.
Lemma mchip_total iad : exists r t, FlagsModel.iad_mchip iad = Ret (r, t).
Proof.
  unfold FlagsModel.iad_mchip. cbv zeta. repeat step. destruct (run_total 18 iad iad_mchip_a_prog) as (a & A); [unfold Zlen in *; lia|vm_compute; reflexivity|].
  destruct (run_total 18 iad (if Zlen iad =? 18 then iad_mchip_b4_prog else iad_mchip_badv_prog)) as (b & B);
    [unfold Zlen in *; lia|destruct (Zlen iad =? 18); vm_compute; reflexivity|].
  destruct (run_total 18 iad iad_mchip_c_prog) as (c & C); [unfold Zlen in *; lia|vm_compute; reflexivity|].
  rewrite A, B, C. cbn [bind]. eauto.
Qed.
Lemma vsdc_013_total iad : exists r t, FlagsModel.iad_vsdc_013 iad = Ret (r, t).
Proof. unfold FlagsModel.iad_vsdc_013. cbv zeta. repeat step; try (ran 7; eauto). Qed.
Lemma vsdc_24_total iad : exists r t, FlagsModel.iad_vsdc_24 iad = Ret (r, t).
Proof. unfold FlagsModel.iad_vsdc_24. cbv zeta. repeat step; try (ran 32; eauto). Qed.
Lemma iad_fine : fine iad_list.
Proof.
  intros v t B. unfold fine_at, iad_list. change (Zlen (0 :: t) =? 0) with false. cbn match.
  destruct (Zlen v =? 0); [eauto using kept_same|]. destruct (Zlen v >? 32); [eauto using kept_same|].
  destruct (iad_exact v B) as (r & -> & _). cbn [bind].
  assert (G : forall h m, (exists r x, m = Ret (r, x)) -> exists r new, (let* (r, x) := m in emit r (h ++ x) (0 :: t)) = Ret (r, new) /\ kept (0 :: t) new).
  { intros h m (r' & x & ->). cbn [bind]. destruct (emit_kept r' (h ++ x) t) as (new & -> & K). eauto. }
  cbv beta zeta.
  repeat match goal with |- exists _ _, (if ?b then _ else _) = _ /\ _ => destruct b end;
    lazymatch goal with
    | |- context [FlagsModel.iad_ccd] => exact (G _ _ (ccd_total v))
    | |- context [FlagsModel.iad_mchip] => exact (G _ _ (mchip_total v))
    | |- context [FlagsModel.iad_vsdc_013] => exact (G _ _ (vsdc_013_total v))
    | |- context [FlagsModel.iad_vsdc_24] => exact (G _ _ (vsdc_24_total v))
    | |- context [emit ?r ?x (0 :: t)] => destruct (emit_kept r x t) as (new & -> & K); exists r, new; split; [reflexivity|exact K]
    end.
Qed.

(** ** Lists and single octets *)
Lemma uncons b l : bytes (b :: l) -> is_byte b /\ bytes l.
Proof. intros H. split; [exact (Forall_inv H)|exact (Forall_inv_tail H)]. Qed.
Ltac nul H := repeat match type of H with
  | bind _ _ = Ret _ => let x := fresh "x" in apply bind_Ret_inv in H as (x & _ & H); cbv beta in H
  | (let '(_, _) := ?x in _) = Ret _ => destruct x
  | (if ?b then _ else _) = Ret _ => destruct b
  | (match ?b with Some _ => _ | None => _ end) = Ret _ => destruct b
  end.
Lemma emit_in r texts t r' new : emit r texts (0 :: t) = Ret (r', new) -> kept (0 :: t) new.
Proof. intros H. destruct (emit_kept r texts t) as (n & E & K). rewrite E in H. injection H as _ <-. exact K. Qed.
Lemma issuer_fine junk : length junk = 3%nat -> fine (issuer_auth_list junk).
Proof.
  intros J v t B. destruct (issuer_safe junk v (0 :: t) J B) as (r & new & E & _). exists r, new. split; [exact E|].
  unfold issuer_auth_list in E. cbv zeta in E. nul E; first [injection E as _ <-; apply kept_same|exact (emit_in _ _ _ _ _ E)].
Qed.
Lemma tpd_fine country v t : bytes v -> length v <> 5%nat \/ 128 <= nth 2 v 0 -> fine_at (tpd_list country) v t.
Proof.
  intros B N. destruct (tpd_safe country v (0 :: t) B N) as (r & new & E & _). exists r, new. split; [exact E|].
  unfold tpd_list in E. nul E; first [injection E as _ <-; apply kept_same|exact (emit_in _ _ _ _ _ E)].
Qed.
Lemma tpd_stray country v str : str <> [] -> length v = 5%nat -> nth 2 v 0 < 128 -> bytes v -> tpd_list country v str = UB.
Proof.
  intros S L N B. destruct v as [|a [|b [|c [|d [|f [|]]]]]]; try discriminate. cbn [nth] in N.
  unfold tpd_list, tpd_texts. rewrite (Zlen_pos str S). change (Zlen [a; b; c; d; f]) with 5. cbn [Z.eqb Z.ltb Z.gtb Z.compare Pos.compare Pos.compare_cont orb].
  rewrite sub_app2. cbn [bind rd nth_error]. apply uncons in B as [_ B]. apply uncons in B as [_ B]. apply uncons in B as [Bc B]. apply uncons in B as [Bd B].
  assert (E : Z.land (Z.shiftl c 8 + d) 32768 =? 0 = true).
  { unfold is_byte in *. apply Z.eqb_eq. rewrite FlagsData.be2. change 32768 with (2 ^ 15). apply Z.bits_inj'. intros n Hn. rewrite Z.land_spec, Z.bits_0, Z.pow2_bits_eqb by lia.
    destruct (Z.eqb_spec 15 n) as [<-|]; [|apply andb_false_r]. rewrite andb_true_r. apply Z.testbit_false; [lia|].
    rewrite Z.div_small by lia. reflexivity. }
  rewrite E. reflexivity.
Qed.
Lemma afl_fine : fine afl_list.
Proof.
  intros l t B. unfold fine_at, afl_list. change (Zlen (0 :: t) =? 0) with false. destruct (Zlen l =? 0); cbn [orb]; [eauto using kept_same|].
  destruct (afl_init_spec l) as [_ I3]. destruct (afl_itr_init l) as [r [itr|]] eqn:I; cbn [fst snd] in *; [|eauto using kept_same].
  assert (E0 : r = 0).
  { unfold afl_itr_init in I. repeat match type of I with context [if ?c then _ else _] => destruct c end; congruence. }
  specialize (I3 E0). injection I3 as ->.
  destruct (afl_all_any (Datatypes.S (length l)) l B ltac:(lia)) as (es & rest & r' & A & _).
  rewrite (afl_texts_all _ _ _ _ A). cbn [bind]. destruct (emit_kept 0 (map afl_text es) t) as (new & -> & K). cbn [bind].
  destruct (r' <? 0); [|eauto]. destruct new as [|c new]; [destruct K as [K _]; discriminate K|]. rewrite wr_first. cbn [bind].
  exists (- r'), (0 :: new). split; [reflexivity|]. destruct K as [K _]. split; [exact K|left; reflexivity].
Qed.
Lemma asrpd_fine : fine asrpd_list.
Proof.
  intros v t B. unfold fine_at, asrpd_list. change (Zlen (0 :: t) =? 0) with false. cbn match.
  destruct (Zlen v =? 0) eqn:Z0; [eauto using kept_same|]. destruct (Zlen v <? 3); [eauto using kept_same|].
  destruct (asrpd_split v B) as (es & rest & V & E & Nr). pose proof (asrpd_len es V) as L.
  assert (Lv : (length (flat_map asrpd_entry es) <= length v)%nat) by (rewrite E, app_length; lia).
  assert (X : exists r ts, asrpd_texts (Datatypes.S (length v)) v = Ret (r, ts)).
  { destruct rest as [|x rest].
    - rewrite app_nil_r in E. subst v. rewrite asrpd_texts_ok by (exact V || lia). eauto.
    - assert (Br : bytes (x :: rest)) by (rewrite E in B; apply bytes_app in B; apply B).
      destruct (asrpd_bad_tail es V (Datatypes.S (length v)) (x :: rest) ltac:(lia) ltac:(discriminate) Br Nr) as (r & ts & Et & _).
      rewrite <- E in Et. eauto. }
  destruct X as (r & ts & ->). cbn [bind]. destruct (emit_kept r ts t) as (new & -> & K). eauto.
Qed.
Lemma cvm_list_fine junk : length junk = 128%nat -> fine (cvm_list_list junk).
Proof.
  intros J l t B. destruct (cvm_list_exact junk l (0 :: t) B ltac:(discriminate) J) as [(r & E & _)|(x & y & rules & new & _ & _ & _ & _ & E & L)].
  - exists r, (0 :: t). split; [exact E|apply kept_same].
  - exists 0, new. split; [exact E|exact (kept_lines _ _ _ L)].
Qed.
Lemma cvm_results_fine junk : length junk = 128%nat -> fine (cvm_results_list junk).
Proof.
  intros J v t B. destruct (Z.eq_dec (Zlen v) 3) as [L|L].
  - destruct v as [|a [|b [|c [|]]]]; try discriminate L; [|unfold Zlen in L; cbn [length] in L; lia].
    apply uncons in B as [Ba B]. apply uncons in B as [Bb B]. apply uncons in B as [Bc _].
    destruct (cvm_results_exact junk a b c (0 :: t) Ba Bb Bc ltac:(discriminate) J) as (new & E & I). exists 0, new. split; [exact E|exact (kept_lines _ _ _ I)].
  - unfold fine_at, cvm_results_list. change (Zlen (0 :: t) =? 0) with false. cbn match. destruct (Zlen v =? 0); [eauto using kept_same|].
    destruct (Z.eqb_spec (Zlen v) 3); [contradiction|]. cbn [negb]. eauto using kept_same.
Qed.
Lemma addl_fine : fine addl_term_caps_list.
Proof. apply field_fine. vm_compute. reflexivity. Qed.
Lemma an_kept v str : In 0 str -> exists r new, format_an_get_string v str = Ret (r, new) /\ length new = length str /\ (r = 0 -> In 0 new).
Proof.
  intros I. destruct (an_total v str) as (r & new & E & L). exists r, new. split; [exact E|]. split; [exact L|]. intros ->.
  unfold format_an_get_string, text_get_string in E. destruct ((_ || _)%bool); [discriminate|]. destruct (_ <? _)%nat; [discriminate|].
  assert (G : forall l o buf new, copy_chars (fun c => is_num c || is_alpha c) l buf o = Ret (0, new) -> In 0 new).
  { induction l as [|c l IH]; intros o buf n; cbn [copy_chars]; intros H.
    - apply bind_Ret_inv in H as (b & W & H). injection H as <-. apply wr_inv in W. destruct W as [W ->].
      apply nth_error_In with o. clear -W. revert o W. induction buf as [|h buf IHb]; intros [|o] W; cbn [length] in W; try lia; cbn [upd nth_error]; [reflexivity|apply IHb; lia].
    - destruct (is_num c || is_alpha c); [|discriminate]. apply bind_Ret_inv in H as (b & W & H). eapply IH; exact H. }
  eapply G; exact E.
Qed.
Lemma arc_fine : fine arc_string.
Proof.
  intros v t _. unfold fine_at, arc_string. change (Zlen (0 :: t) =? 0) with false. cbn match.
  destruct (Zlen v =? 0); [eauto using kept_same|]. rewrite wr_first. cbn [bind].
  destruct (Zlen (0 :: t) <? 3) eqn:L3; [eauto using kept_same|]. destruct (negb _); [eauto using kept_same|].
  destruct (an_kept v (0 :: t) ltac:(left; reflexivity)) as (r & new & -> & L & I). cbn [bind].
  destruct (Z.eqb_spec r 0) as [->|]; cbn [negb].
  - specialize (I eq_refl). destruct (Zlen new <? 10) eqn:L10; [exists 0, new; repeat split; assumption|].
    destruct (key_lookup v arc_map) as [d|]; [|exists 0, new; repeat split; assumption].
    unfold snprintf. unfold Zlen in *. destruct (length new - 2)%nat as [|m] eqn:M; [lia|].
    set (x := firstn m _ ++ [0]). assert (Lx : (length x <= S m)%nat) by (unfold x; rewrite app_length, firstn_length; cbn [length]; lia).
    assert (P : exists n2, put new 2 x = Ret n2 /\ length n2 = length new /\ In 0 n2).
    { rewrite put_Ret by lia. eexists. split; [reflexivity|]. split; [rewrite !app_length, firstn_length, skipn_length; lia|].
      apply in_or_app. right. apply in_or_app. left. unfold x. apply in_or_app. right. left. reflexivity. }
    destruct P as (n2 & -> & L2 & I2). cbn [bind]. exists 0, n2. split; [reflexivity|]. split; [congruence|exact I2].
  - destruct new as [|c new]; [discriminate L|]. rewrite wr_first. cbn [bind]. exists r, (0 :: new). split; [reflexivity|]. split; [exact L|left; reflexivity].
Qed.

Lemma octet_fine f g : octet_ok f g -> fine1 f.
Proof.
  intros O b t B. destruct (O b (0 :: t) B ltac:(discriminate)) as [A N]. destruct (String.string_dec (g b) "") as [E|E].
  - rewrite (N E). eauto using kept_same.
  - destruct (A E) as (new & -> & Sh). exists 0, new. split; [reflexivity|exact (kept_shown _ _ _ Sh)].
Qed.
Lemma cid_fine : fine1 cid_list.
Proof. intros b t B. destruct (cid_listed b (0 :: t) B ltac:(discriminate)) as (new & -> & L). exists 0, new. split; [reflexivity|exact (kept_lines _ _ _ L)]. Qed.
Lemma term_type_fine : fine1 term_type_list.
Proof.
  intros b t B. destruct (Z.eq_dec b 0) as [->|N]; [eexists _, _; split; [reflexivity|apply kept_same]|].
  destruct (term_type_safe b (0 :: t) B N ltac:(discriminate)) as (new & x & -> & _ & L). exists 0, new. split; [reflexivity|exact (kept_lines _ _ _ L)].
Qed.

(** ** Values, lookups and application names *)
Lemma value_kept f max tag v str : bytes v -> In 0 str -> (tag = 0x9F12 -> max <> 0%nat) ->
  (f = FormatN -> (11 <= length str)%nat \/ (max <> 0%nat /\ Nat.even max = true) \/ (10 <= max)%nat) ->
  exists r new, tlv_value_get_string f max tag v str = Ret (r, new) /\ kept str new.
Proof.
  intros B I H12 HN. assert (NE : str <> []) by (intros ->; destruct I).
  assert (HN' : (f = FormatN -> (11 <= length str)%nat \/ (max <> 0%nat /\ Nat.even max = true)) \/ ((10 <= max)%nat /\ (length str < 11)%nat)).
  { destruct (Nat.le_gt_cases 11 (length str)) as [L|L]; [left; auto|]. destruct (Nat.le_gt_cases 10 max); [right; split; lia|].
    left. intros E. destruct (HN E) as [H0|[H0|H0]]; [auto|auto|lia]. }
  destruct HN' as [HN'|[M L]].
  - destruct (value_text f max tag v str B NE H12 HN') as (r & new & E & Ln & T & F). exists r, new. split; [exact E|].
    destruct (Z.eq_dec r 0) as [E0|E0].
    + destruct (T E0) as (txt & X). exact (kept_text _ _ _ X).
    + destruct (F E0) as [->|(rest & ->)]; split; try exact Ln; [exact I|left; reflexivity].
  - unfold tlv_value_get_string. destruct (Nat.eqb_spec (length str) 0); [destruct str; [contradiction|discriminate]|].
    destruct (Nat.eqb_spec max 0); [lia|]. cbn [negb andb].
    match goal with |- context [if ?c then _ else _] => destruct c end; [eexists _, _; split; [reflexivity|split; [reflexivity|exact I]]|].
    destruct (Nat.ltb_spec (length str) (max + 1)); [|lia]. eexists _, _. split; [reflexivity|split; [reflexivity|exact I]].
Qed.
Lemma found_ok o str : str <> [] -> exists new, found o str = Ret (0, new) /\ kept str new.
Proof.
  intros S. destruct o as [s|]; cbn [found].
  - destruct (copy_text_ok s str S) as (new & E & K & _). eauto.
  - destruct str as [|c str]; [contradiction|]. rewrite wr_first. cbn [bind]. exists (0 :: str). split; [reflexivity|]. split; [reflexivity|left; reflexivity].
Qed.
Lemma p_s_in s : In 0 s -> exists t, p_s s = Ret t.
Proof.
  induction s as [|c s IH]; intros H; [destruct H|]. cbn [p_s]. destruct (Z.eqb_spec c 0); [eauto|].
  destruct H as [->|H]; [contradiction|]. destruct (IH H) as (t & ->). cbn [bind]. eauto.
Qed.
Lemma letters_fine n look : fine (letters_string n look).
Proof.
  intros v t _. unfold fine_at, letters_string. change (Zlen (0 :: t) =? 0) with false. cbn match.
  destruct (Zlen v =? 0); [eauto using kept_same|]. destruct (negb _); [eauto using kept_same|].
  destruct (p_s_in (v ++ [0]%Z)) as (code & ->); [apply in_or_app; right; left; reflexivity|]. cbn [bind].
  destruct (found_ok (look code) (0 :: t) ltac:(discriminate)) as (new & -> & K). eauto.
Qed.
Lemma numeric_ok look v str : str <> [] -> exists r new, numeric_string look v str = Ret (r, new) /\ (r = 0 -> kept str new) /\ (r <> 0 -> new = str).
Proof.
  intros S. unfold numeric_string. rewrite (Zlen_pos str S). destruct (Zlen v =? 0); [exists (-1), str; split; [reflexivity|split; [lia|auto]]|].
  destruct (negb _); [exists 1, str; split; [reflexivity|split; [lia|auto]]|].
  assert (G : forall r, r <> 0 -> exists r' new, Ret (r, str) = Ret (r', new) /\ (r' = 0 -> kept str new) /\ (r' <> 0 -> new = str)).
  { intros r R. exists r, str. split; [reflexivity|split; [contradiction|auto]]. }
  destruct (format_n_to_uint v) as [r o] eqn:E.
  assert (Z : r = 0 -> o <> None).
  { intros ->. unfold format_n_to_uint in E. destruct v; [discriminate|]. destruct (n_to_uint_loop _ 0). congruence. }
  destruct r as [|p|p]; [|apply G; discriminate..]. destruct o as [n|]; [|exfalso; apply Z; reflexivity].
  destruct (found_ok (look n) str S) as (new & -> & K). exists 0, new. split; [reflexivity|split; [auto|intros X; contradiction]].
Qed.

Lemma numeric_fine look : fine (numeric_string look).
Proof.
  intros v t _. destruct (numeric_ok look v (0 :: t) ltac:(discriminate)) as (r & new & E & K & N). exists r, new. split; [exact E|].
  destruct (Z.eq_dec r 0); [auto|]. rewrite N by assumption. apply kept_same.
Qed.
Lemma language_ok e v str : str <> [] ->
  exists r new, language_alpha2_string e v str = Ret (r, new) /\ (r = 0 -> kept str new) /\ (r <> 0 -> new = str).
Proof.
  intros S. unfold language_alpha2_string. rewrite (Zlen_pos str S).
  destruct (Zlen v =? 0); [exists (-1), str; split; [reflexivity|split; [lia|auto]]|].
  destruct (Z.eqb_spec (Zlen v) 2) as [L|L]; cbn [negb]; [|exists 1, str; split; [reflexivity|split; [lia|auto]]].
  destruct v as [|a [|b [|]]]; try discriminate L; [|unfold Zlen in L; cbn [length] in L; lia]. cbn [rd nth_error bind].
  destruct (p_s_in [tolower a; tolower b; 0]) as (code & ->); [right; right; left; reflexivity|]. cbn [bind].
  destruct (found_ok (language_by e code) str S) as (new & -> & K). exists 0, new. split; [reflexivity|split; [auto|intros X; contradiction]].
Qed.
Lemma pair_texts_ok (f : list Z -> list Z -> out (Z * list Z)) junk :
  (forall v str, str <> [] -> exists r new, f v str = Ret (r, new) /\ (r = 0 -> kept str new) /\ (r <> 0 -> new = str)) ->
  junk <> [] -> forall n v, (length v <= n)%nat -> exists r ts, pair_texts f junk v = Ret (r, ts).
Proof.
  intros F J. induction n as [|n IH]; intros v L; [destruct v; [|cbn [length] in L; lia]; cbn; eauto|].
  destruct v as [|a [|b v]]; [cbn; eauto..|]. cbn [pair_texts]. destruct (F [a; b] junk J) as (r & new & -> & K & N). cbn [bind].
  destruct (Z.eqb_spec r 0) as [E0|E0]; cbn [negb]; [|eauto]. destruct (K E0) as [Ln I]. destruct new as [|c new]; [destruct I|].
  cbn [rd nth_error bind]. destruct (p_s_in (c :: new) I) as (t & P). rewrite P.
  destruct (IH v ltac:(cbn [length] in L; lia)) as (r' & ts & E). destruct (negb (c =? 0)); cbn [bind]; rewrite E; cbn [bind]; eauto.
Qed.
Lemma pair_fine f junk : 
  (forall v str, str <> [] -> exists r new, f v str = Ret (r, new) /\ (r = 0 -> kept str new) /\ (r <> 0 -> new = str)) ->
  junk <> [] -> fine (pair_list f junk).
Proof.
  intros F J v t _. unfold fine_at, pair_list. change (Zlen (0 :: t) =? 0) with false. destruct (Zlen v =? 0); cbn [orb]; [eauto using kept_same|].
  destruct (negb _); [eauto using kept_same|]. destruct (pair_texts_ok f junk F J (length v) v ltac:(lia)) as (r & ts & ->). cbn [bind].
  destruct (emit_kept r ts t) as (new & -> & K). eauto.
Qed.
Lemma aid_fine : fine aid_string.
Proof.
  intros v t _. unfold fine_at, aid_string. change (Zlen (0 :: t) =? 0) with false. cbn match.
  destruct (Zlen v =? 0); [eauto using kept_same|]. destruct ((Zlen v <? 5) || (Zlen v >? 16)) eqn:L; [eauto using kept_same|].
  assert (L' : (5 <= length v <= 16)%nat) by (unfold Zlen in L; lia).
  assert (A : exists r s p, aid_get_info v = Ret (r, (s, p))).
  { destruct (find (fun ps => prefixb (fst ps) v) schemes) as [[p s]|] eqn:F.
    - apply find_some in F as [I P]. apply prefixb_spec in P. destruct (aid_scheme v p s L' I P) as (prod & _ & ->). destruct (s =? SCHEME_JCB); eauto.
    - rewrite aid_unknown; [eauto|exact L'|]. intros p s I P. apply prefixb_spec in P. pose proof (find_none _ _ F _ I) as Q. cbn [fst] in Q. congruence. }
  destruct A as (r & s & p & ->). cbn [bind]. destruct (negb _); [eauto using kept_same|].
  match goal with |- context [match ?x with EmptyString => Ret (1, _) | String _ _ => copy_text (lit ?y) _ end] => change y with x; set (name := x) end.
  destruct name; [eauto using kept_same|]. edestruct (copy_text_ok) as (new & -> & K & _); [|eauto]. discriminate.
Qed.
Lemma octets_of v : bytes v -> forall b, In b v -> is_byte b.
Proof. intros B. apply Forall_forall. exact B. Qed.
Lemma amount_fine v t : bytes v -> (11 <= length (0 :: t)%Z)%nat -> fine_at amount_get_string v t.
Proof.
  intros B L. destruct v as [|a v]; [exists (-1), (0 :: t); split; [reflexivity|apply kept_same]|].
  destruct (amount_text (a :: v) (0 :: t) B ltac:(discriminate) L) as (A4 & A5).
  destruct (Nat.le_gt_cases (length (a :: v)) 4) as [L4|L4].
  - destruct (A4 L4) as (ds & new & _ & E & T). exists 0, new. split; [exact E|exact (kept_text _ _ _ T)].
  - exists (-2), (0 :: t). split; [apply A5; lia|apply kept_same].
Qed.
Lemma capdu_fine e v t : length (j_id e) = 511%nat -> bytes v ->
  (stray_field 0x86 v (0 :: t) /\ capdu_string e v (0 :: t) = UB) \/ (~ stray_field 0x86 v (0 :: t) /\ fine_at (capdu_string e) v t).
Proof.
  intros J B. destruct v as [|a v].
  - right. split; [|exists (-1), (0 :: t); split; [reflexivity|apply kept_same]].
    intros [H|[H|[H|[H|[H|H]]]]]; [destruct H as [H _]; clear -H; cbn in H; intuition lia|destruct H as [H _]; clear -H; cbn in H; intuition lia|destruct H; lia|destruct H; lia| |destruct H; lia].
    destruct H as (_ & _ & [[H _]|[H _]]); cbn [length] in H; lia.
  - assert (St : stray_field 0x86 (a :: v) (0 :: t) <-> stray (a :: v) (length (0 :: t)%Z)).
    { split.
      - intros [H|[H|[H|[H|[H|H]]]]]; [destruct H as [H _]; clear -H; cbn in H; intuition lia|destruct H as [H _]; clear -H; cbn in H; intuition lia|destruct H; lia|destruct H; lia| |destruct H; lia].
        destruct H as (_ & H). exact H.
      - intros H. do 4 right. left. split; [reflexivity|]. exact H. }
    destruct (emv_exact (a :: v) (0 :: t) (j_id e) B ltac:(discriminate) ltac:(discriminate) J) as [(S & E)|(S & r & new & E & L & s & C)].
    + left. split; [apply St; exact S|exact E].
    + right. split; [rewrite St; exact S|]. exists r, new. split; [exact E|]. split; [exact L|]. exact (cstring_in _ _ C).
Qed.

(** ** All fields *)
Definition arrays (e : env) : Prop := length (j_text e) = 128%nat /\ length (j_arc e) = 3%nat /\ length (j_cond e) = 128%nat /\ length (j_id e) = 511%nat.
Definition enough (tag : Z) (str : list Z) : Prop := (11 <= length str)%nat \/ ~ In tag number_tags.
Definition act_exact (tag : Z) (a : action) : Prop := forall v t, bytes v -> enough tag (0 :: t) ->
  (stray_field tag v (0 :: t) /\ run_action tag (Octets v) a (0 :: t) = UB) \/
  (~ stray_field tag v (0 :: t) /\ exists r new, run_action tag (Octets v) a (0 :: t) = Ret (r, new) /\ kept (0 :: t) new).
Definition act_fine (tag : Z) (a : action) : Prop := forall v t, bytes v -> enough tag (0 :: t) ->
  exists r new, run_action tag (Octets v) a (0 :: t) = Ret (r, new) /\ kept (0 :: t) new.

Definition stray_tags : list Z := [0x9C; 0x5F57; 0x9F27; 0x9F35; 0x9F39; 0x9A; 0x5F24; 0x5F25; 0x9F21; 0x57; 0x86; 0x9F6E].
Lemma stray_tag tag v str : stray_field tag v str -> In tag stray_tags.
Proof. unfold stray_field, stray_tags. cbn [In]. intros H. intuition lia. Qed.
Lemma mem_false tag l : existsb (Z.eqb tag) l = false -> ~ In tag l.
Proof. intros E I. assert (X : existsb (Z.eqb tag) l = true) by (apply existsb_exists; exists tag; split; [exact I|apply Z.eqb_refl]). congruence. Qed.
Lemma calm tag a : existsb (Z.eqb tag) stray_tags = false -> act_fine tag a -> act_exact tag a.
Proof. intros E F v t B R. right. split; [|exact (F v t B R)]. intros S. exact (mem_false _ _ E (stray_tag _ _ _ S)). Qed.
Lemma none_act tag : act_fine tag NoText.
Proof. intros v t _ _. exists 0, (0 :: t). split; [reflexivity|apply kept_same]. Qed.
Lemma whole_act tag f : fine f -> act_fine tag (Whole f).
Proof. intros F v t B _. exact (F v t B). Qed.
Lemma value_act tag f max : negb ((tag =? 0x9F12) && (max =? 0)%nat) = true ->
  match f with FormatN => (negb (max =? 0)%nat && Nat.even max) || (10 <=? max)%nat || existsb (Z.eqb tag) number_tags | _ => true end = true -> act_fine tag (Value f max).
Proof.
  intros H12 HN v t B R. cbn [run_action value_string]. apply value_kept; [exact B|left; reflexivity| |].
  - intros -> ->. discriminate.
  - intros ->. destruct (negb (max =? 0)%nat && Nat.even max) eqn:E1; [right; left; apply andb_prop in E1 as [E1 E2]; split; [lia|exact E2]|]. destruct (Nat.leb_spec 10 max); [auto|]. cbn [orb] in HN.
    left. destruct R as [R|R]; [exact R|]. exfalso. apply R. apply existsb_exists in HN as (x & I & Ex). apply Z.eqb_eq in Ex. subst x. exact I.
Qed.
Lemma amount_act tag : existsb (Z.eqb tag) number_tags = true -> act_fine tag (Whole amount_get_string).
Proof.
  intros E v t B [R|R].
  - exact (amount_fine v t B R).
  - exfalso. apply R. apply existsb_exists in E as (x & I & Ex). apply Z.eqb_eq in Ex. subst x. exact I.
Qed.
Lemma first_act tag f : fine1 f -> In tag [0x9C; 0x5F57; 0x9F27; 0x9F35; 0x9F39] -> act_exact tag (First f).
Proof.
  intros F I v t B _. destruct v as [|b v].
  - left. split; [left; split; [exact I|reflexivity]|reflexivity].
  - right. split.
    + unfold stray_field. cbn [In] in *. intros S. intuition (discriminate || lia).
    + cbn [run_action rd nth_error bind]. apply F. apply uncons in B. apply B.
Qed.
Lemma country_act tag n look max : tag <> 0x9F12 -> act_fine tag (CountryOr (letters_string n look) max).
Proof.
  intros H12 v t B _. cbn [run_action octets]. destruct (letters_fine n look v t B) as (r & new & E & K). rewrite E. cbn [bind].
  match goal with |- context [if ?c then _ else _] => destruct c end.
  - destruct (value_kept FormatA max tag v new B (proj2 K) ltac:(contradiction) ltac:(discriminate)) as (r' & n' & E' & K').
    exists r', n'. split; [exact E'|exact (kept_trans _ _ _ K K')].
  - exists 0, new. split; [reflexivity|exact K].
Qed.
Lemma df_act tag : act_fine tag DfName.
Proof.
  intros v t B _. cbn [run_action]. unfold df_name_string. cbn [vlen octets].
  assert (G : exists r new, (if (length v <? length (0 :: t)%Z)%nat then let* str := put (0 :: t) 0 v in let* str := wr str (length v) 0 in Ret (0, str)
                             else Ret (0, 0 :: t)) = Ret (r, new) /\ kept (0 :: t) new).
  { destruct (Nat.ltb_spec (length v) (length (0 :: t)%Z)) as [L|L]; [|eauto using kept_same].
    rewrite CapduProofs.put_0 by lia. cbn [bind]. unfold into.
    destruct (skipn (length v) (0 :: t)) as [|c r] eqn:E; [apply (f_equal (@List.length Z)) in E; rewrite skipn_length in E; cbn [length] in E, L; lia|].
    rewrite wr_app by reflexivity. cbn [bind]. exists 0, (v ++ 0 :: r). split; [reflexivity|]. split; [|apply in_or_app; right; left; reflexivity].
    apply (f_equal (@List.length Z)) in E. rewrite skipn_length in E. rewrite app_length. cbn [length] in *. lia. }
  destruct (length v =? length pse)%nat; destruct (length v =? length ppse)%nat; cbn [bind];
    repeat match goal with |- context [negb ?b] => destruct b; cbn [negb bind] end; try exact G; apply (aid_fine v t B).
Qed.
Lemma track2_act : act_exact 0x57 (Whole track2_get_string).
Proof.
  intros v t B _. cbn [run_action octets].
  assert (St : stray_field 0x57 v (0 :: t) <-> (length (0 :: t)%Z <= length (before_pad (nibbles v)))%nat).
  { split; [unfold stray_field; cbn [In]; intros S; intuition lia|]. intros H. do 3 right. left. auto. }
  destruct v as [|a v].
  - right. split; [rewrite St; cbn; lia|]. exists (-1), (0 :: t). split; [reflexivity|apply kept_same].
  - destruct (track2_cases (a :: v) (0 :: t) B ltac:(discriminate) ltac:(discriminate)) as [A U].
    destruct (Nat.le_gt_cases (length (0 :: t)%Z) (length (before_pad (nibbles (a :: v))))) as [L|L].
    + left. split; [apply St, L|exact (U L)].
    + right. split; [rewrite St; lia|]. destruct (A L) as (new & E & T). exists 0, new. split; [exact E|exact (kept_text _ _ _ T)].
Qed.
Lemma wr_nf (l : list Z) i x : wr l i x <> NoFuel.
Proof. unfold wr. destruct (_ <? _)%nat; discriminate. Qed.
Lemma date_time_nf loc min fmt val str : date_time loc min fmt val str <> NoFuel.
Proof.
  unfold date_time. repeat match goal with |- context [if ?c then _ else _] => destruct c; [discriminate|] end.
  assert (D : forall l i buf, digits_loop l i buf <> NoFuel).
  { induction l as [|b l IH]; intros i buf; cbn [digits_loop]; [discriminate|]. destruct (9 <? _); [discriminate|].
    pose proof (wr_nf buf (i * 2) (0x30 + Z.shiftr b 4)). destruct (wr buf _ _) as [b1| |]; cbn [bind]; [|discriminate|contradiction].
    destruct (9 <? _); [discriminate|]. pose proof (wr_nf b1 (i * 2 + 1) (0x30 + Z.land b 0xF)). destruct (wr b1 _ _) as [b2| |]; cbn [bind]; [apply IH|discriminate|contradiction]. }
  pose proof (D val 0%nat loc). destruct (digits_loop val 0 loc) as [[r l]| |]; cbn [bind]; [|discriminate|contradiction].
  destruct (negb _); [discriminate|]. pose proof (wr_nf l (length val * 2 + 1) 0). destruct (wr l _ _) as [l2| |]; cbn [bind]; [|discriminate|contradiction].
  unfold sub. destruct (_ <=? _)%nat; cbn [bind]; [|discriminate]. unfold put. destruct (_ <=? _)%nat; cbn [bind]; discriminate.
Qed.
Lemma date_act tag : In tag [0x9A; 0x5F24; 0x5F25] -> act_exact tag (Whole date_get_string).
Proof.
  intros I v t B _. cbn [run_action octets]. destruct (date_time_exact v (0 :: t) B ltac:(discriminate)) as (U & _ & R & _).
  assert (St : stray_field tag v (0 :: t) <-> bcd v /\ length v = 3%nat /\ (11 <= length (0 :: t)%Z)%nat).
  { split; [|intros H; right; left; tauto]. unfold stray_field. cbn [In] in *. intros S. intuition lia. }
  destruct (date_get_string v (0 :: t)) as [[r new]| |] eqn:E.
  - right. split; [rewrite St, <- U; discriminate|]. exists r, new. split; [reflexivity|]. destruct (R r new eq_refl) as [_ ->]. apply kept_same.
  - left. split; [apply St, U; reflexivity|reflexivity].
  - exfalso. exact (date_time_nf _ _ _ _ _ E).
Qed.
Lemma time_act : act_exact 0x9F21 (Whole time_get_string).
Proof.
  intros v t B _. cbn [run_action octets]. destruct (date_time_exact v (0 :: t) B ltac:(discriminate)) as (_ & U & _ & R).
  assert (St : stray_field 0x9F21 v (0 :: t) <-> bcd v /\ length v = 3%nat /\ (9 <= length (0 :: t)%Z)%nat).
  { split; [|intros H; right; right; left; tauto]. unfold stray_field. cbn [In] in *. intros S. intuition lia. }
  destruct (time_get_string v (0 :: t)) as [[r new]| |] eqn:E.
  - right. split; [rewrite St, <- U; discriminate|]. exists r, new. split; [reflexivity|]. destruct (R r new eq_refl) as [_ ->]. apply kept_same.
  - left. split; [apply St, U; reflexivity|reflexivity].
  - exfalso. exact (date_time_nf _ _ _ _ _ E).
Qed.
Lemma capdu_act e : arrays e -> act_exact 0x86 (Whole (capdu_string e)).
Proof. intros (_ & _ & _ & J) v t B _. exact (capdu_fine e v t J B). Qed.
Lemma field_fine' f strict n p : f = field_list strict n p -> forallb (stmt_in n) p = true -> fine f.
Proof. intros -> F. apply field_fine, F. Qed.
Ltac bits p := eapply (field_fine' _ _ _ p); [reflexivity|vm_compute; reflexivity].
Lemma aip_fine : fine aip_list. Proof. bits aip_prog. Qed.
Lemma tvr_fine : fine tvr_list. Proof. bits tvr_prog. Qed.
Lemma tsi_fine : fine tsi_list. Proof. bits tsi_prog. Qed.
Lemma auc_fine : fine auc_list. Proof. bits auc_prog. Qed.
Lemma trmd_fine : fine trmd_list. Proof. bits trmd_prog. Qed.
Lemma term_caps_fine : fine term_caps_list. Proof. bits term_caps_prog. Qed.
Lemma ctq_fine : fine ctq_list. Proof. bits ctq_prog. Qed.
Lemma ttq_fine : fine ttq_list. Proof. bits ttq_prog. Qed.
Lemma enh_fine : fine enh_caps_list. Proof. bits enh_caps_prog. Qed.
Lemma pos_fine : fine1 pos_entry_string. Proof. eapply octet_fine. apply octet_string_ok. vm_compute. reflexivity. Qed.
Lemma transaction_fine : fine1 transaction_type_string. Proof. eapply octet_fine. apply octet_string_ok. vm_compute. reflexivity. Qed.
Lemma account_fine : fine1 account_type_string. Proof. eapply octet_fine. apply octet_string_ok. vm_compute. reflexivity. Qed.
Lemma language_list_fine e : arrays e -> fine (language_list e).
Proof. intros (J & _). apply pair_fine; [apply language_ok|]. intros X. rewrite X in J. discriminate. Qed.
Lemma currency_list_fine e : arrays e -> fine (currency_list e).
Proof. intros (J & _). apply pair_fine; [apply numeric_ok|]. intros X. rewrite X in J. discriminate. Qed.

Ltac one_case A :=
  lazymatch goal with
  | |- act_exact ?tag (Whole date_get_string) => apply date_act; cbn [In]; intuition lia
  | |- act_exact ?tag (Whole time_get_string) => exact time_act
  | |- act_exact ?tag (Whole track2_get_string) => exact track2_act
  | |- act_exact ?tag (Whole (capdu_string _)) => exact (capdu_act _ A)
  | |- act_exact ?tag (First _) => apply first_act; [first [exact transaction_fine|exact account_fine|exact cid_fine|exact term_type_fine|exact pos_fine]|cbn [In]; intuition lia]
  | |- act_exact ?tag ?a => apply calm; [reflexivity|];
    lazymatch a with
    | NoText => apply none_act
    | Value _ _ => apply value_act; reflexivity
    | CountryOr _ _ => apply country_act; discriminate
    | DfName => apply df_act
    | Whole amount_get_string => apply amount_act; reflexivity
    | Whole ?f => apply whole_act;
      lazymatch f with
      | aid_string => exact aid_fine | aip_list => exact aip_fine | arc_string => exact arc_fine
      | cvm_list_list _ => apply cvm_list_fine, A | issuer_auth_list _ => apply issuer_fine, A
      | afl_list => exact afl_fine | tvr_list => exact tvr_fine | tsi_list => exact tsi_fine
      | country_numeric_string _ => apply numeric_fine | currency_numeric_string _ => apply numeric_fine | mcc_string _ => apply numeric_fine
      | language_list _ => exact (language_list_fine _ A) | currency_list _ => exact (currency_list_fine _ A)
      | auc_list => exact auc_fine | asrpd_list => exact asrpd_fine | iad_list => exact iad_fine | trmd_list => exact trmd_fine
      | term_caps_list => exact term_caps_fine | cvm_results_list _ => apply cvm_results_fine, A
      | addl_term_caps_list => exact addl_fine | ctq_list => exact ctq_fine
      end
    end
  end.
Lemma cases_exact e : arrays e -> Forall (fun c => act_exact (fst c) (snd (snd c))) (cases e).
Proof. intros A. unfold cases. repeat (apply Forall_cons; [cbn [fst snd]; one_case A|]). apply Forall_nil. Qed.
Lemma case_exact e tag name k a : arrays e -> case_of e tag = Some (name, k, a) -> act_exact tag a.
Proof.
  intros A. unfold case_of. destruct (find _ (cases e)) as [[g x]|] eqn:F; [|discriminate]. cbn [snd]. intros H. injection H as ->.
  apply find_some in F as [I E]. cbn [fst] in E. apply Z.eqb_eq in E. subst g.
  pose proof (cases_exact e A) as C. rewrite Forall_forall in C. exact (C _ I).
Qed.
Lemma visa_ffi_total v : exists b, visa_ffi (Octets v) = Ret b.
Proof. unfold visa_ffi. destruct v as [|a [|b [|c [|d [|]]]]]; cbn; eauto. Qed.
Lemma amex_caps4_total v : exists b, amex_caps4 (Octets v) = Ret b.
Proof. unfold amex_caps4. destruct v as [|a [|b [|c [|d [|]]]]]; cbn; eauto. Qed.
Lemma case_rest e tag : case_of e tag = None -> ~ In tag [0x9F66; 0x9F6D; 0x9F6E] -> ~ In tag stray_tags.
Proof.
  intros C N I. unfold stray_tags in I. cbn [In] in I.
  repeat (destruct I as [<-|I]; [first [vm_compute in C; discriminate C|apply N; cbn; tauto]|]). exact I.
Qed.
(** Whether the description of a field stays within its memory. *)
Theorem info_safety e tag v c t : arrays e -> bytes v -> enough tag (0 :: t) ->
  (stray_field tag v (0 :: t) /\ tlv_get_info e tag (Octets v) (c :: t) = UB) \/
  (~ stray_field tag v (0 :: t) /\ exists r n k new, tlv_get_info e tag (Octets v) (c :: t) = Ret (r, n, k, new) /\ kept (0 :: t) new).
Proof.
  intros A B R. unfold tlv_get_info. rewrite wr_first. cbn [bind].
  assert (K : forall o : option (string * kind * action), (forall n k a, o = Some (n, k, a) -> act_exact tag a) -> (o = None -> ~ stray_field tag v (0 :: t)) ->
    let m : out (Z * option string * kind * list Z) := (match o with None => Ret (1, None, IsB, 0 :: t)
              | Some (name, k, a) => let* (r, str) := run_action tag (Octets v) a (0 :: t) in Ret (r, Some name, k, str) end) in
    (stray_field tag v (0 :: t) /\ m = UB) \/ (~ stray_field tag v (0 :: t) /\ exists r n k new, m = Ret (r, n, k, new) /\ kept (0 :: t) new)).
  { intros o H N. cbv zeta. destruct o as [[[n k] a]|].
    - destruct (H n k a eq_refl v t B R) as [(S & E)|(S & r & new & E & Kp)]; rewrite E; cbn [bind]; [left; auto|right].
      split; [exact S|]. exists r, (Some n), k, new. auto.
    - right. split; [auto|]. exists 1, None, IsB, (0 :: t). split; [reflexivity|apply kept_same]. }
  assert (NS : tag = 0x9F66 \/ tag = 0x9F6D -> ~ stray_field tag v (0 :: t)).
  { intros E S. apply stray_tag in S. unfold stray_tags in S. cbn [In] in S. intuition lia. }
  unfold choose. cbn [vlen].
  destruct (Z.eqb_spec tag 0x9F66) as [E66|N66].
  { cbn [bind]. refine (K (if (length v =? 4)%nat then Some (_, _, _) else None) _ _); [|intros _; apply NS; tauto].
    intros n k a H. destruct (length v =? 4)%nat; [|discriminate]. injection H as <- <- <-. subst tag. apply calm; [reflexivity|]. apply whole_act, ttq_fine. }
  destruct (Z.eqb_spec tag 0x9F6D) as [E6D|N6D].
  { cbn [bind]. destruct (Nat.eqb_spec (length v) 1) as [L|L].
    - right. split; [apply NS; tauto|]. destruct v as [|b [|]]; try discriminate. cbn [run_action rd nth_error bind].
      apply uncons in B as [Bb _]. destruct (octet_fine _ _ amex_ok b t Bb) as (r & new & -> & Kp). cbn [bind]. eauto 8.
    - refine (K None _ _); [discriminate|intros _; apply NS; tauto]. }
  destruct (Z.eqb_spec tag 0x9F6E) as [E6E|N6E].
  { assert (St : stray_field tag v (0 :: t) <-> length v = 5%nat /\ nth 2 v 0 < 128).
    { split; [unfold stray_field; cbn [In]; intros S; intuition lia|]. intros H. do 5 right. tauto. }
    destruct ((4 <? length v) && (length v <=? 32))%nat eqn:L.
    - cbn [bind run_action octets]. destruct (Nat.eq_dec (length v) 5) as [L5|L5].
      + destruct (Z.lt_ge_cases (nth 2 v 0) 128) as [H|H].
        * left. split; [tauto|]. rewrite tpd_stray by (assumption || discriminate). reflexivity.
        * right. split; [rewrite St; lia|]. destruct (tpd_fine (tpd_country e) v t B (or_intror H)) as (r & new & -> & Kp). cbn [bind]. eauto 8.
      + right. split; [rewrite St; lia|]. destruct (tpd_fine (tpd_country e) v t B (or_introl L5)) as (r & new & -> & Kp). cbn [bind]. eauto 8.
    - assert (NL : ~ stray_field tag v (0 :: t)) by (rewrite St; destruct (Nat.ltb_spec 4 (length v)); destruct (Nat.leb_spec (length v) 32); cbn in L; try discriminate; lia).
      right. split; [exact NL|]. destruct (visa_ffi_total v) as (b1 & ->). cbn [bind]. destruct b1; cbn [bind].
      + cbn [run_action octets]. destruct (ffi_fine v t B) as (r & new & -> & Kp). cbn [bind]. eauto 8.
      + destruct (amex_caps4_total v) as (b2 & ->). cbn [bind]. destruct b2; cbn [bind].
        * cbn [run_action octets]. destruct (enh_fine v t B) as (r & new & -> & Kp). cbn [bind]. eauto 8.
        * eauto 8 using kept_same. }
  cbn [bind]. refine (K (case_of e tag) _ _).
  - intros n k a H. exact (case_exact e tag n k a A H).
  - intros H S. refine (case_rest e tag H _ (stray_tag _ _ _ S)). cbn [In]. intuition lia.
Qed.

(** Entries of Data Object Lists, described without a buffer. *)
Definition empty_ok (a : action) : Prop := match a with
  | Whole f => exists r, f [] [] = Ret (r, []) | CountryOr f _ => exists r, f [] [] = Ret (r, []) | _ => True end.
Lemma cases_empty e : Forall (fun c => empty_ok (snd (snd c)) /\ (snd (snd c) = DfName -> fst c = 0x84)) (cases e).
Proof.
  unfold cases. repeat (apply Forall_cons; [split; [cbn [fst snd empty_ok]; first [exact I|eexists; reflexivity]|cbn [fst snd]; first [discriminate|reflexivity]]|]).
  apply Forall_nil.
Qed.
Lemma empty_run tag n a : empty_ok a -> (a = DfName -> n <> 14%nat) -> exists r, run_action tag (Null n) a [] = Ret (r, []).
Proof.
  intros E D. destruct a as [|f max|f|f|f max|]; cbn [run_action octets empty_ok] in *; try (eexists; reflexivity); [exact E| |].
  - destruct E as (r & ->). cbn [bind]. destruct (_ || _)%bool; eexists; reflexivity.
  - unfold df_name_string. cbn [vlen octets]. change (length pse) with 14%nat. change (length ppse) with 14%nat.
    destruct (Nat.eqb_spec n 14) as [->|]; [exfalso; apply D; reflexivity|]. eexists. reflexivity.
Qed.
Theorem entry_safety e tag n :
  (tag = 0x84 /\ n = 14%nat -> tlv_get_info e tag (Null n) [] = UB) /\
  (~ (tag = 0x84 /\ n = 14%nat) -> exists r name k, tlv_get_info e tag (Null n) [] = Ret (r, name, k, [])).
Proof.
  split; [intros [-> ->]; reflexivity|]. intros N. unfold tlv_get_info. cbn [bind].
  assert (G : forall (name : string) (k : kind) a, empty_ok a -> (a = DfName -> n <> 14%nat) ->
    exists r nm k', (let* (r, str) := run_action tag (Null n) a [] in Ret (r, Some name, k, str)) = Ret (r, nm, k', [] : list Z)).
  { intros name k a E D. destruct (empty_run tag n a E D) as (r & ->). cbn [bind]. eauto. }
  unfold choose. cbn [vlen].
  destruct (tag =? 0x9F66). { cbn [bind]. destruct (n =? 4)%nat; [apply G; [eexists; reflexivity|discriminate]|eauto]. }
  destruct (tag =? 0x9F6D). { cbn [bind]. destruct (n =? 1)%nat; [apply G; [exact I|discriminate]|eauto]. }
  destruct (tag =? 0x9F6E). { cbn [visa_ffi amex_caps4]. destruct ((4 <? n) && (n <=? 32))%nat; cbn [bind]; [apply G; [eexists; reflexivity|discriminate]|eauto]. }
  cbn [bind]. destruct (case_of e tag) as [[[name k] a]|] eqn:C; [|eauto]. unfold case_of in C.
  destruct (find _ (cases e)) as [[g x]|] eqn:F; [|discriminate]. cbn [snd] in C. injection C as ->.
  apply find_some in F as [Ic E]. cbn [fst] in E. apply Z.eqb_eq in E. subst g.
  pose proof (cases_empty e) as Q. rewrite Forall_forall in Q. destruct (Q _ Ic) as [Q1 Q2]. cbn [fst snd] in Q1, Q2.
  apply G; [exact Q1|]. intros D n14. apply N. split; [exact (Q2 D)|exact n14].
Qed.

(** ** Names *)
Definition case_names (e : env) : list (Z * string) := map (fun c => (fst c, fst (fst (snd c)))) (cases e).
Lemma names_documented e : case_names e = documented.
Proof. reflexivity. Qed.
