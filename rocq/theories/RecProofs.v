(** Proofs about the messages told while the application data are read. *)
From Coq Require Import String.
From Verif Require Import Base BaseLemmas BerModel BerSpec BerProofs TlvListModel TlvModel TlvSpec TlvProofs DolModel TtlModel FieldsModel FieldsSpec FieldsProofs AppModel
  TalModel TalSpec TalProofs StrModel StrSpec FlagsModel FlagsSpec FlagsTexts PrintModel DirModel DirProofs RecModel RecSpec.
Open Scope string_scope.
Open Scope Z_scope.
Open Scope list_scope.
Notation length := List.length.

(** ** In step with the model without messages *)
Section Step.
Context {T : Type} (x : transport T).
Lemma record_silent sfi rec oda l n : silent (sfi_record_n sfi rec oda l n) = sfi_record sfi rec l.
Proof.
  unfold silent, sfi_record_n, sfi_record. destruct (rd rec 0) as [b0| |]; cbn [bind]; try reflexivity. cbv zeta.
  destruct (negb (b0 =? 0x70)); [destruct ((1 <=? sfi) && (sfi <=? 10))%bool; reflexivity|].
  assert (P : forall n1 : list note, (let* (a, _) := (let* (r, l0) := tlv_parse rec l in
      Ret (if r <? 0 then (TAL_INTERNAL, false, l0, n1 ++ [Err (lit "Internal error")])
           else if 0 <? r then (TAL_READ_RECORD_PARSE_FAILED, false, l0, n1 ++ [Err (lit "Failed to parse application data record")]) else (0, false, l0, n1))) in Ret a) =
     (let* (r, l0) := tlv_parse rec l in Ret (if r <? 0 then TAL_INTERNAL else if 0 <? r then TAL_READ_RECORD_PARSE_FAILED else 0, false, l0))).
  { intros n1. destruct (tlv_parse rec l) as [[r l0]| |]; cbn [bind]; try reflexivity. destruct (r <? 0); [reflexivity|]. destruct (0 <? r); reflexivity. }
  destruct ((1 <=? sfi) && (sfi <=? 10))%bool.
  - destruct (ber_decode rec) as [[r t]| |]; cbn [bind]; try reflexivity. destruct (r <=? 0); [reflexivity|]. destruct t as [t|]; [|reflexivity]. cbn [bind].
    destruct (negb (b_tag t =? 0x70)); [reflexivity|]. cbn [orb]. destruct (u32 (b_len t + 3) <? Zlen rec); [reflexivity|]. apply P.
  - cbn [bind]. apply P.
Qed.
Lemma sfi_silent fuel : forall s e rec oda l n, silent (sfi_loop_n x fuel s e rec oda l n) = sfi_loop x fuel s e rec oda l.
Proof.
  induction fuel as [|fuel IH]; intros; [reflexivity|]. cbn [sfi_loop_n sfi_loop]. destruct (a_last e <? rec); [reflexivity|].
  cbv zeta. destruct (x_read x s (a_sfi e) rec) as [a| |]; cbn [bind]; try reflexivity.
  destruct (negb (n_ret a =? 0)); [reflexivity|]. destruct (negb (n_sw a =? 0x9000)); [reflexivity|].
  rewrite <- (record_silent (a_sfi e) (n_data a) oda l (n ++ [Info (lit "READ RECORD from SFI " ++ p_dec (a_sfi e) ++ lit ", record " ++ p_dec rec)])).
  unfold silent at 2. destruct (sfi_record_n _ _ _ _ _) as [[[[r inv] l'] n']| |]; cbn [bind]; try reflexivity.
  destruct (negb (r =? 0)); [reflexivity|apply IH].
Qed.
Lemma afl_silent rfuel fuel : forall s itr oda l n, silent (afl_loop_n x fuel rfuel s itr oda l n) = afl_loop x fuel rfuel s itr oda l.
Proof.
  induction fuel as [|fuel IH]; intros; [reflexivity|]. cbn [afl_loop_n afl_loop]. destruct (afl_itr_next itr) as [[[r e] itr']| |]; cbn [bind]; try reflexivity.
  destruct (0 <? r).
  - destruct e as [e|]; [|reflexivity]. unfold read_sfi_records. rewrite <- (sfi_silent _ _ _ _ _ _ n). unfold silent at 2.
    destruct (sfi_loop_n _ _ _ _ _ _ _ _) as [[[[r1 l1] s1] n1]| |]; cbn [bind]; try reflexivity.
    destruct (r1 =? 0); [apply IH|]. destruct (r1 =? TAL_ODA_RECORD_INVALID); [apply IH|reflexivity].
  - destruct (r <? 0); reflexivity.
Qed.
Lemma read_afl_silent rfuel s afl l : silent (read_afl_n x rfuel s afl l) = read_afl_records x rfuel s afl l.
Proof.
  unfold read_afl_n, read_afl_records. destruct (length afl =? 0)%nat; [reflexivity|]. destruct (afl_itr_init afl) as [r [itr|]]; [apply afl_silent|].
  destruct (r <? 0); reflexivity.
Qed.
End Step.

(** ** Messages *)
Lemma read_note_ok sfi rec : 0 <= sfi < 256 -> 0 <= rec < 256 ->
  Info (lit "READ RECORD from SFI " ++ p_dec sfi ++ lit ", record " ++ p_dec rec) = read_note (sfi, rec).
Proof. intros H1 H2. unfold read_note. cbn [fst snd]. rewrite !p_dec_text by lia. reflexivity. Qed.
Lemma read_note_read q : is_read (read_note q) = true /\ is_error (read_note q) = false /\ is_used (read_note q) = false.
Proof. destruct q as [a b]. repeat split; reflexivity. Qed.
Lemma ended_error r m : ended r m -> is_error m = true /\ is_read m = false /\ is_used m = false /\ r < 0.
Proof. intros []; repeat (split; [reflexivity|]); cbv; reflexivity. Qed.
(** The message that a record is used. *)
Definition used (u : note) : Prop := is_used u = true /\ is_error u = false /\ is_read u = false.

Lemma record_told sfi data oda l n r inv l' n' : bytes data -> Zlen data <= 256 -> 1 <= sfi <= 30 ->
  sfi_record_n sfi data oda l n = Ret (r, inv, l', n') ->
  (r = 0 /\ inv = true /\ n' = n ++ [not_possible]) \/
  (r = 0 /\ inv = false /\ exists u, used u /\ n' = n ++ if oda then [] else [u]) \/
  (exists m, ended r m /\ (n' = n ++ [m] \/ exists u, used u /\ n' = n ++ (if oda then [] else [u]) ++ [m])).
Proof.
  intros B L Hs E. pose proof (small256 _ L) as S. unfold sfi_record_n in E. destruct (rd data 0) as [b0| |] eqn:Eb; cbn [bind] in E; try discriminate. cbv zeta in E.
  destruct (Z.eqb_spec b0 0x70) as [H7|H7]; cbn [negb] in E.
  2:{ destruct (Z.leb_spec 1 sfi); [|lia]. cbn [andb] in E. destruct (Z.leb_spec sfi 10) as [H10|H10].
      - right; right. rewrite p_dec_text in E by lia.
        assert (r = TAL_READ_RECORD_INVALID /\ n' = n ++ [Err (lit "Invalid record for SFI " ++ decimal_text sfi)]) as (-> & ->) by (split; congruence).
        eexists. split; [apply (end_record sfi); lia|]. left. reflexivity.
      - left. assert (r = 0 /\ inv = true /\ n' = n ++ [not_possible]) as (-> & -> & ->) by (unfold not_possible; repeat split; congruence). auto. }
  set (low := ((1 <=? sfi) && (sfi <=? 10))%bool) in *.
  assert (P : forall u, used u -> (let* (r, l) := tlv_parse data l in
      Ret (if r <? 0 then (TAL_INTERNAL, false, l, (if oda then n else n ++ [u]) ++ [Err (lit "Internal error")])
           else if 0 <? r then (TAL_READ_RECORD_PARSE_FAILED, false, l, (if oda then n else n ++ [u]) ++ [Err (lit "Failed to parse application data record")])
           else (0, false, l, (if oda then n else n ++ [u])))) = Ret (r, inv, l', n') ->
    (r = 0 /\ inv = false /\ exists u, used u /\ n' = n ++ if oda then [] else [u]) \/
    (exists m, ended r m /\ (n' = n ++ [m] \/ exists u, used u /\ n' = n ++ (if oda then [] else [u]) ++ [m]))).
  { intros u Hu E1. destruct (parse_any data l B S) as (r0 & fs & Ep & Hr & _). rewrite Ep in E1. cbn [bind] in E1.
    destruct (Z.ltb_spec r0 0); [lia|]. destruct (Z.ltb_spec 0 r0).
    - right. assert (r = TAL_READ_RECORD_PARSE_FAILED /\ n' = (if oda then n else n ++ [u]) ++ [Err (lit "Failed to parse application data record")]) as (-> & ->) by (split; congruence).
      eexists. split; [apply end_parse|]. right. exists u. split; [exact Hu|]. destruct oda; [reflexivity|now rewrite <- app_assoc].
    - left. assert (r = 0 /\ inv = false /\ n' = (if oda then n else n ++ [u])) as (-> & -> & ->) by (repeat split; congruence).
      split; [reflexivity|]. split; [reflexivity|]. exists u. split; [exact Hu|]. destruct oda; [now rewrite app_nil_r|reflexivity]. }
  right. destruct low eqn:Elow.
  - destruct (ber_decode_safe data B S) as (r0 & t & D & Ok). rewrite D in E. cbn [bind] in E. destruct (Z.leb_spec r0 0) as [Hr|Hr].
    { right. cbn [bind] in E. assert (r = TAL_READ_RECORD_INVALID /\ n' = n ++ [Err (lit "Failed to parse record template")]) as (-> & ->) by (split; congruence).
      eexists. split; [apply end_template|]. left. reflexivity. }
    destruct t as [t|]; cbn [ber_ok] in Ok; [|lia]. cbn [bind] in E.
    destruct (decode_piece data r0 t B S D) as [Pc Hlen]. destruct (piece_starts _ _ Pc) as (id & (Hid & rest & Ei) & Ti).
    assert (T7 : b_tag t = 0x70).
    { assert (Hd : hd_error (id ++ rest ++ skipn (Z.to_nat r0) data) = Some 0x70).
      { rewrite app_assoc, <- Ei, firstn_skipn. destruct data as [|d0 data]; [discriminate|]. unfold rd in Eb. cbn [nth_error] in Eb. cbn [hd_error]. congruence. }
      rewrite Ti. rewrite (hd70_id id _ Hid Hd). reflexivity. }
    rewrite T7 in E. change (negb (0x70 =? 0x70)) with false in E. cbv iota in E.
    destruct (piece_val _ _ Pc ltac:(auto)) as [Bv Lv]. rewrite firstn_length_le in Lv by lia.
    assert (Ln : b_len t = Zlen (b_val t)) by (destruct Pc as [[_ K]|(id' & _ & _ & _ & _ & _ & K)]; exact K).
    assert (Lr : 0 <= b_len t < 256) by (rewrite Ln; unfold Zlen in *; lia).
    assert (U : u32 (b_len t + 3) = b_len t + 3) by (unfold u32; apply Z.mod_small; lia). rewrite U in E.
    destruct (Z.ltb_spec (b_len t + 3) (Zlen data)).
    + right. rewrite p_dec_text in E by lia.
      assert (r = TAL_READ_RECORD_INVALID /\ n' = n ++ [Err (lit "Invalid record template length " ++ decimal_text (b_len t))]) as (-> & ->) by (split; congruence).
      eexists. split; [apply (end_length (b_len t)); lia|]. left. reflexivity.
    + apply (P (Info (lit "Record template content used for offline data authentication"))); [repeat split; vm_compute; reflexivity|exact E].
  - cbn [bind] in E. apply (P (Info (lit "Record used verbatim for offline data authentication"))); [repeat split; vm_compute; reflexivity|exact E].
Qed.

(** ** The records of an entry *)
Section Told.
Context {T : Type} (x : transport T) (W : wf_transport x).
(** After the message that authentication is not possible no record is told to be used. *)
Definition quiet (ns : list note) : Prop := forall a b, ns = a ++ not_possible :: b -> filter is_used b = [].
Definition tells (oda : bool) (r : Z) (reqs : list (Z * Z)) (ns : list note) : Prop :=
  filter is_read ns = map read_note reqs /\
  exists k, errors_told r k ns /\ (0 <= r -> (r = 0 \/ r = TAL_ODA_RECORD_INVALID) /\ (r = TAL_ODA_RECORD_INVALID <-> oda = true \/ (0 < k)%nat)).
Lemma used_not u : used u -> u <> not_possible.
Proof. intros (_ & E & _) ->. discriminate. Qed.
Lemma not_used : is_used not_possible = false /\ is_read not_possible = false /\ is_error not_possible = true.
Proof. repeat split; reflexivity. Qed.
Lemma tells_front oda r reqs ns pre q j : tells (oda || (0 <? Z.of_nat j))%bool r reqs ns ->
  filter is_read pre = [] -> filter is_error pre = repeat not_possible j -> (oda = true -> True) ->
  tells oda r (q :: reqs) (read_note q :: pre ++ ns).
Proof.
  intros (R & k & Er & Hr) Rp Ep _. destruct (read_note_read q) as (N1 & N2 & N3). split.
  { cbn [filter map]. rewrite N1, filter_app, Rp, R. reflexivity. }
  exists (j + k)%nat. split.
  - destruct Er as [(P & F)|(Ng & n0 & m & -> & En & F)].
    + left. split; [exact P|]. cbn [filter]. rewrite N2, filter_app, Ep, F. symmetry. apply repeat_app.
    + right. split; [exact Ng|]. exists (read_note q :: pre ++ n0), m. split; [cbn [app]; now rewrite <- app_assoc|]. split; [exact En|].
      cbn [filter]. rewrite N2, filter_app, Ep, F. symmetry. apply repeat_app.
  - intros P. destruct (Hr P) as (H1 & H2). split; [exact H1|]. rewrite H2, Bool.orb_true_iff, Z.ltb_lt. split; [intros [[->|H]|H]|intros [->|H]]; auto; lia.
Qed.
Lemma quiet_app_nil a b : filter is_used b = [] -> quiet a -> quiet (a ++ b).
Proof.
  intros Hb. induction a as [|m a IH]; intros Q c d E.
  - cbn [app] in E. subst b. rewrite filter_app in Hb. apply app_eq_nil in Hb as (_ & Hb). cbn [filter] in Hb. destruct (is_used not_possible); [discriminate|exact Hb].
  - destruct c as [|m' c]; cbn [app] in E.
    + assert (m = not_possible /\ d = a ++ b) as (-> & ->) by (split; congruence). rewrite filter_app, Hb, app_nil_r. apply (Q [] a). reflexivity.
    + assert (m = m' /\ a ++ b = c ++ not_possible :: d) as (<- & E') by (split; congruence). clear E. rename E' into E. apply (IH (fun a0 b0 E0 => Q (m :: a0) b0 ltac:(cbn [app]; congruence)) c d E).
Qed.
Lemma quiet_cons m ns : m <> not_possible -> quiet ns -> quiet (m :: ns).
Proof. intros Hm Q [|m' a] b E; cbn [app] in E; [exfalso; apply Hm; congruence|]. assert (E2 : ns = a ++ not_possible :: b) by congruence. exact (Q a b E2). Qed.
Lemma quiet_none ns : filter is_used ns = [] -> quiet ns.
Proof. intros H. apply (quiet_app_nil [] ns H). intros [|] b E; discriminate. Qed.
Lemma ended_not r m : ended r m -> m <> not_possible.
Proof. intros [] E; discriminate. Qed.
Lemma read_not q : read_note q <> not_possible.
Proof. discriminate. Qed.

Lemma sfi_told e : 1 <= a_sfi e <= 30 -> forall fuel s log rec oda l n r l' s' log' n', is_byte rec ->
  sfi_loop_n (watched x) fuel (s, log) e rec oda l n = Ret (r, l', (s', log'), n') ->
  exists reqs ns, n' = n ++ ns /\ log' = log ++ reqs /\ tells oda r reqs ns /\ quiet ns /\
    (oda = true -> filter is_used ns = []) /\ (r = 0 -> length (filter is_used ns) = length reqs).
Proof.
  intros Hs. induction fuel as [|fuel IH]; intros s log rec oda l n r l' s' log' n' Br E; [discriminate|]. cbn [sfi_loop_n] in E.
  destruct (a_last e <? rec).
  { exists [], []. assert (r = (if oda then TAL_ODA_RECORD_INVALID else 0) /\ log' = log /\ n' = n) as (-> & -> & ->) by (repeat split; congruence).
    rewrite !app_nil_r. split; [reflexivity|]. split; [reflexivity|]. split.
    { split; [reflexivity|]. exists 0%nat. split; [left; split; [destruct oda; cbv; discriminate|reflexivity]|].
      intros _. destruct oda; (split; [auto|]); (split; [|intros [H|H]]); try discriminate; try lia; auto. }
    split; [apply quiet_none; reflexivity|]. split; reflexivity. }
  assert (Rr : 0 <= rec < 256) by exact Br. cbv zeta in E. rewrite read_note_ok in E by lia.
  assert (Bs : is_byte (a_sfi e)) by (unfold is_byte; lia). pose proof W as (_ & _ & Wr & _). specialize (Wr s (a_sfi e) rec Bs Br).
  cbn [watched x_read fst snd] in E. destruct (x_read x s (a_sfi e) rec) as [a| |]; [|discriminate|discriminate]. cbn [good_answer] in Wr.
  cbn [bind n_ret n_data n_sw n_st] in E. set (q := (a_sfi e, rec)) in *. destruct (read_note_read q) as (N1 & N2 & N3).
  assert (Stop : forall m pre, ended r m -> (pre = [] \/ exists u, used u /\ pre = if oda then [] else [u]) -> n' = n ++ read_note q :: pre ++ [m] -> log' = log ++ [q] ->
    exists reqs ns, n' = n ++ ns /\ log' = log ++ reqs /\ tells oda r reqs ns /\ quiet ns /\
    (oda = true -> filter is_used ns = []) /\ (r = 0 -> length (filter is_used ns) = length reqs)).
  { intros m pre Em Hp -> ->. destruct (ended_error _ _ Em) as (M1 & M2 & M3 & M4). exists [q], (read_note q :: pre ++ [m]). split; [reflexivity|]. split; [reflexivity|].
    assert (Pp : filter is_read pre = [] /\ filter is_error pre = [] /\ quiet (pre ++ [m]) /\ (oda = true -> pre = [])).
    { assert (Qm : quiet [m]) by (apply quiet_none; cbn [filter]; now rewrite M3).
      destruct Hp as [->|(u & (U1 & U2 & U3) & ->)]; [auto|]. destruct oda; [auto|]. cbn [filter]. rewrite U2, U3. split; [reflexivity|]. split; [reflexivity|].
      split; [|discriminate]. apply quiet_cons; [|exact Qm]. intros ->. discriminate. }
    destruct Pp as (P1 & P2 & P3 & P4). split.
    { split; [cbn [filter map]; rewrite N1, filter_app, P1; cbn [filter app]; now rewrite M2|]. exists 0%nat. split; [|lia].
      right. split; [exact M4|]. exists (read_note q :: pre), m. split; [reflexivity|]. split; [exact Em|]. cbn [filter repeat]. now rewrite N2, P2. }
    split; [apply quiet_cons; [apply read_not|exact P3]|]. split; [|lia]. intros O. rewrite (P4 O). cbn [app filter]. now rewrite N3, M3. }
  destruct (Z.eqb_spec (n_ret a) 0) as [R0|R0]; cbn [negb] in E.
  2:{ assert (r = TAL_TTL_FAILURE /\ log' = log ++ [q] /\ n' = n ++ read_note q :: [] ++ [Err (lit "TTL failure")]) as (-> & -> & ->)
        by (cbn [app]; rewrite <- app_assoc in E; cbn [app] in E; repeat split; congruence).
      apply (Stop (Err (lit "TTL failure")) []); auto. apply end_ttl. }
  destruct (Z.eqb_spec (n_sw a) 0x9000) as [S9|S9]; cbn [negb] in E.
  2:{ assert (r = TAL_READ_RECORD_FAILED /\ log' = log ++ [q] /\ n' = n ++ read_note q :: [] ++ [Err (lit "Failed to READ RECORD")]) as (-> & -> & ->)
        by (cbn [app]; rewrite <- app_assoc in E; cbn [app] in E; repeat split; congruence).
      apply (Stop (Err (lit "Failed to READ RECORD")) []); auto. apply end_status. }
  destruct (Wr R0) as [Bd Ld]. destruct (sfi_record_n (a_sfi e) (n_data a) oda l (n ++ [read_note q])) as [[[[r1 inv] l1] n1]| |] eqn:Er; cbn [bind] in E; try discriminate.
  destruct (record_told _ _ _ _ _ _ _ _ _ Bd Ld Hs Er) as [(-> & -> & ->)|[(-> & -> & u & Hu & ->)|(m & Em & Hn)]].
  - change (negb (0 =? 0)) with false in E. cbv iota in E. destruct (IH _ _ _ _ _ _ _ _ _ _ _ (u8_next rec) E) as (reqs & ns & -> & -> & K1 & K2 & K3 & K4).
    exists (q :: reqs), (read_note q :: [not_possible] ++ ns). rewrite <- !app_assoc. split; [reflexivity|]. split; [reflexivity|].
    specialize (K3 (Bool.orb_true_r oda)).
    split; [apply (tells_front oda r reqs ns [not_possible] q 1); [exact K1|reflexivity|reflexivity|auto]|].
    split; [apply quiet_cons; [apply read_not|]; apply quiet_none; cbn [app filter]; exact K3|]. split; [intros _; cbn [app filter]; rewrite N3; exact K3|].
    intros ->. exfalso. destruct K1 as (_ & k & _ & Hk). destruct (Hk ltac:(lia)) as (_ & Hk2). rewrite Bool.orb_true_r in Hk2. assert (0 = TAL_ODA_RECORD_INVALID) by (apply Hk2; auto). discriminate.
  - change (negb (0 =? 0)) with false in E. cbv iota in E. destruct (IH _ _ _ _ _ _ _ _ _ _ _ (u8_next rec) E) as (reqs & ns & -> & -> & K1 & K2 & K3 & K4).
    rewrite Bool.orb_false_r in *. exists (q :: reqs), (read_note q :: (if oda then [] else [u]) ++ ns). rewrite <- !app_assoc. split; [reflexivity|]. split; [reflexivity|].
    pose proof Hu as (U1 & U2 & U3).
    split; [apply (tells_front oda r reqs ns (if oda then [] else [u]) q 0); [rewrite Bool.orb_false_r; exact K1|destruct oda; cbn [filter]; rewrite ?U3; reflexivity|destruct oda; cbn [filter]; rewrite ?U2; reflexivity|auto]|].
    split; [apply quiet_cons; [apply read_not|]; destruct oda; [exact K2|apply quiet_cons; [now apply used_not|exact K2]]|].
    split; [intros ->; cbn [app filter]; rewrite N3; auto|]. intros ->. cbn [filter]. rewrite N3.
    assert (O : oda = false). { destruct oda; [|reflexivity]. exfalso. destruct K1 as (_ & k & _ & Hk). destruct (Hk ltac:(lia)) as (_ & Hk2). assert (0 = TAL_ODA_RECORD_INVALID) by (apply Hk2; auto). discriminate. }
    subst oda. cbn [app filter]. rewrite U1. cbn [length]. f_equal. auto.
  - destruct (ended_error _ _ Em) as (_ & _ & _ & Ng). destruct (Z.eqb_spec r1 0); [lia|]. cbn [negb] in E.
    assert (r = r1 /\ log' = log ++ [q] /\ n' = n1) as (-> & -> & ->) by (repeat split; congruence).
    destruct Hn as [->|(u & Hu & ->)].
    + apply (Stop m []); auto. now rewrite <- app_assoc.
    + apply (Stop m (if oda then [] else [u])); eauto. now rewrite <- !app_assoc.
Qed.

(** ** The entries *)
Lemma afl_told rfuel fuel : forall itr s log oda l n r l' s' log' n', bytes itr ->
  afl_loop_n (watched x) fuel rfuel (s, log) itr oda l n = Ret (r, l', (s', log'), n') ->
  exists reqs ns, n' = n ++ ns /\ log' = log ++ reqs /\ tells oda r reqs ns /\ (r = 0 -> length (filter is_used ns) = length reqs).
Proof.
  induction fuel as [|fuel IH]; intros itr s log oda l n r l' s' log' n' B E; [discriminate|]. cbn [afl_loop_n] in E.
  destruct (afl_next_spec itr B) as [[E1 E2]|[(e & rest & E1 & V & _ & E2)|(E1 & V' & r0 & Hr0 & E2)]]; rewrite E2 in E; cbn [bind] in E.
  - change (0 <? 0) with false in E. cbv iota in E. exists [], [].
    assert (r = (if oda then TAL_ODA_RECORD_INVALID else 0) /\ log' = log /\ n' = n) as (-> & -> & ->) by (repeat split; congruence).
    rewrite !app_nil_r. split; [reflexivity|]. split; [reflexivity|]. split; [|reflexivity].
    split; [reflexivity|]. exists 0%nat. split; [left; split; [destruct oda; cbv; discriminate|reflexivity]|].
    intros _. destruct oda; (split; [auto|]); (split; [|intros [H|H]]); try discriminate; try lia; auto.
  - change (0 <? 4) with true in E. cbv iota in E. subst itr. apply bytes_app in B as [_ B]. pose proof V as (V1 & V2 & V3 & V4).
    destruct (sfi_loop_n (watched x) rfuel (s, log) e (a_first e) false l n) as [[[[r1 l1] [s1 log1]] n1]| |] eqn:Es; cbn [bind] in E; try discriminate.
    assert (Bf : is_byte (a_first e)) by (unfold is_byte; lia).
    destruct (sfi_told e V1 _ _ _ _ _ _ _ _ _ _ _ _ Bf Es) as (reqs & ns & -> & -> & (K1 & k & K2 & K3) & _ & _ & K4).
    assert (Join : forall oda2, (r1 = 0 -> oda2 = oda) -> (r1 = TAL_ODA_RECORD_INVALID -> oda2 = true) -> 0 <= r1 ->
      afl_loop_n (watched x) fuel rfuel (s1, log ++ reqs) rest oda2 l1 (n ++ ns) = Ret (r, l', (s', log'), n') ->
      exists reqs ns, n' = n ++ ns /\ log' = log ++ reqs /\ tells oda r reqs ns /\ (r = 0 -> length (filter is_used ns) = length reqs)).
    { intros oda2 O1 O2 P E3. destruct (IH _ _ _ _ _ _ _ _ _ _ _ B E3) as (reqs2 & ns2 & -> & -> & (L1 & k2 & L2 & L3) & L4).
      exists (reqs ++ reqs2), (ns ++ ns2). rewrite <- !app_assoc. split; [reflexivity|]. split; [reflexivity|].
      destruct (K3 P) as (P0 & Pk). assert (F : filter is_error ns = repeat not_possible k) by (destruct K2 as [(_ & F)|(Ng & _)]; [exact F|lia]).
      assert (Od : oda2 = true <-> oda = true \/ (0 < k)%nat).
      { destruct P0 as [P0|P0]; [rewrite (O1 P0)|rewrite (O2 P0)]; [|split; [intros _; right; destruct (proj1 Pk P0) as [K|K]; [discriminate|exact K]|reflexivity]]. split; [auto|]. intros [H|H]; [exact H|]. exfalso.
        assert (r1 = TAL_ODA_RECORD_INVALID) by (apply Pk; auto). rewrite P0 in *. discriminate. }
      split.
      { split; [rewrite filter_app, map_app; congruence|]. exists (k + k2)%nat. split.
        - destruct L2 as [(P2 & F2)|(Ng & n0 & m & -> & En & F2)].
          + left. split; [exact P2|]. rewrite filter_app, F, F2. symmetry. apply repeat_app.
          + right. split; [exact Ng|]. exists (ns ++ n0), m. split; [now rewrite <- app_assoc|]. split; [exact En|]. rewrite filter_app, F, F2. symmetry. apply repeat_app.
        - intros P2. destruct (L3 P2) as (H1 & H2). split; [exact H1|]. rewrite H2, Od. split; [intros [[->|H]|H]|intros [->|H]]; auto; try (right; lia).
          destruct k; [right; lia|left; right; lia]. }
      intros ->. rewrite filter_app, !app_length, (L4 eq_refl). rewrite K4; [reflexivity|]. destruct P0 as [P0|P0]; [exact P0|]. exfalso.
      destruct (L3 ltac:(lia)) as (_ & H2). assert (0 = TAL_ODA_RECORD_INVALID) by (apply H2; left; auto). discriminate. }
    destruct (Z.eqb_spec r1 0) as [->|R0]; [apply (Join oda); auto; [discriminate|lia]|].
    destruct (Z.eqb_spec r1 TAL_ODA_RECORD_INVALID) as [->|R1]; [apply (Join true); auto; [discriminate|cbv; discriminate]|].
    assert (r = r1 /\ log' = log ++ reqs /\ n' = n ++ ns) as (-> & -> & ->) by (repeat split; congruence).
    assert (Ng : r1 < 0) by (destruct (Z.ltb_spec r1 0) as [H|H]; [exact H|]; destruct (K3 H) as ([H1|H1] & _); contradiction).
    exists reqs, ns. split; [reflexivity|]. split; [reflexivity|]. split; [|intros; contradiction]. split; [exact K1|]. exists k. split; [exact K2|]. lia.
  - destruct (Z.ltb_spec 0 r0); [lia|]. destruct (Z.ltb_spec r0 0); [|lia].
    assert (r = TAL_AFL_INVALID /\ log' = log /\ n' = n ++ [Err (lit "AFL parse error")]) as (-> & -> & ->) by (repeat split; congruence).
    exists [], [Err (lit "AFL parse error")]. rewrite app_nil_r. split; [reflexivity|]. split; [reflexivity|]. split; [|discriminate].
    split; [reflexivity|]. exists 0%nat. split; [|intros P; exfalso; revert P; cbv; auto].
    right. split; [reflexivity|]. exists [], (Err (lit "AFL parse error")). split; [reflexivity|]. split; [apply end_afl|reflexivity].
Qed.
End Told.
