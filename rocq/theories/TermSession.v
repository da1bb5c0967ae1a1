(** Proofs for emv-tool: the transaction. *)
From Coq Require Import String Permutation.
From Verif Require Import Base BaseLemmas BerModel BerSpec BerProofs TlvListModel TlvModel TlvSpec TlvProofs DolModel DolSpec DolProofs StrModel StrSpec CapduModel FlagsSpec FlagsModel ToolsModel ToolsSpec PrintModel DecodeModel TtlModel
  FieldsModel FieldsSpec AppModel AppSpec AppProofs TalModel TalSpec TalProofs TalProps EmvModel EmvSpec TtlSpec TalWire EmvProofs EmvWire TermModel TermSpec TermProofs.
Open Scope string_scope.
Open Scope Z_scope.
Open Scope list_scope.
Notation length := List.length.

(** ** The cardholder's choice *)
Lemma number_from_then ds c r : digits ds -> digit_in 10 c = None -> forall v, number_from 10 (chars ds ++ c :: r) v = (fold_left (fun a d => a * 10 + d) ds v, c :: r).
Proof.
  intros D N. induction D as [|d ds Hd _ IH]; intros v; [cbn [chars map app number_from fold_left]; rewrite N; reflexivity|].
  cbn [chars map app number_from fold_left]. rewrite (digit_10 d Hd). apply IH.
Qed.
Lemma chars_no_nul ds r : digits ds -> up_to_nul (chars ds ++ 10 :: r) = chars ds ++ 10 :: up_to_nul r.
Proof.
  intros D. induction D as [|d ds Hd _ IH]; [reflexivity|]. cbn [chars map app up_to_nul]. destruct (Z.eqb_spec (48 + d) 0); [lia|]. f_equal. exact IH.
Qed.
Lemma scan_line ds : digits ds -> ds <> [] -> scan_u (chars ds ++ [10]) = Some (u32 (number ds)).
Proof.
  intros D NE. unfold scan_u. rewrite (chars_no_nul ds [] D). cbn [up_to_nul].
  assert (E : sign (skip_space (chars ds ++ [10])) = (false, chars ds ++ [10])).
  { destruct D as [|d ds Hd _]; [congruence|]. cbn [chars map app skip_space]. unfold is_space.
    destruct (Z.eqb_spec (48 + d) 0x20); [lia|]. destruct (Z.leb_spec 9 (48 + d)), (Z.leb_spec (48 + d) 13); try lia; cbn [orb andb sign].
    destruct (Z.eqb_spec (48 + d) 0x2D); [lia|]. destruct (Z.eqb_spec (48 + d) 0x2B); [lia|reflexivity]. }
  rewrite E, (number_from_then ds 10 [] D eq_refl 0). destruct ds as [|d ds]; [congruence|]. cbn [chars map app fst]. inversion D as [|? ? Hd _]; subst. rewrite (digit_10 d Hd). reflexivity.
Qed.
Lemma ask_line ds rest count : digits ds -> (1 <= length ds <= 2)%nat ->
  ask (chars ds ++ 10 :: rest) count = (if (1 <=? number ds) && (number ds <=? count) then Some (Z.to_nat (number ds - 1)) else None, rest).
Proof.
  intros D L. assert (F : fgets 3 (chars ds ++ 10 :: rest) = (chars ds ++ [10], rest)).
  { destruct ds as [|a [|b [|? ?]]]; cbn [length] in L; try lia; unfold digits in D; repeat match goal with H : Forall _ (_ :: _) |- _ => inversion H; subst; clear H end; cbn [chars map app fgets].
    - destruct (Z.eqb_spec (48 + a) 10); [lia|reflexivity].
    - destruct (Z.eqb_spec (48 + a) 10); [lia|]. destruct (Z.eqb_spec (48 + b) 10); [lia|reflexivity]. }
  unfold ask. destruct (chars ds ++ 10 :: rest) as [|z zs] eqn:E; [destruct ds; discriminate|]. rewrite F. f_equal.
  rewrite scan_line by (try assumption; intros ->; cbn in L; lia).
  assert (R : 0 <= number ds < 100).
  { destruct ds as [|a [|b [|? ?]]]; cbn [length] in L; try lia; unfold digits in D; repeat match goal with H : Forall _ (_ :: _) |- _ => inversion H; subst; clear H end;
      [change (0 <= 0 * 10 + a < 100)|change (0 <= (0 * 10 + a) * 10 + b < 100)]; lia. }
  rewrite u32_id by lia. destruct (Z.eqb_spec (number ds) 0), (Z.ltb_spec count (number ds)), (Z.leb_spec 1 (number ds)), (Z.leb_spec (number ds) count); try lia; reflexivity.
Qed.
Lemma fgets_split n i : exists a, i = a ++ snd (fgets n i) /\ fst (fgets n i) = a /\ (length a <= n)%nat /\ (i <> [] -> (0 < n)%nat -> a <> []).
Proof.
  revert i. induction n as [|n IH]; intros i; [exists []; destruct i; repeat split; cbn; lia|]. destruct i as [|c t]; [exists []; repeat split; cbn; [lia|congruence]|].
  cbn [fgets]. destruct (Z.eqb_spec c 10) as [->|N]; [exists [10]; repeat split; cbn [length]; [lia|discriminate]|].
  destruct (IH t) as (a & E & F & L & _). destruct (fgets n t) as [x y]. cbn [fst snd] in *. subst x. exists (c :: a). split; [cbn [app]; congruence|]. split; [reflexivity|].
  split; [cbn [length]; lia|discriminate].
Qed.
Lemma ask_spec i count : exists a, i = a ++ snd (ask i count) /\ (length a <= 3)%nat /\ (i <> [] -> a <> []) /\
  forall k, fst (ask i count) = Some k -> 1 <= Z.of_nat (S k) <= count.
Proof.
  unfold ask. destruct i as [|c i]; [exists []; repeat split; cbn [length fst]; try lia; try congruence; discriminate|].
  destruct (fgets_split 3 (c :: i)) as (a & E & F & L & N). destruct (fgets 3 (c :: i)) as [x y]. cbn [fst snd] in *. subst x. exists a. split; [exact E|]. split; [exact L|].
  split; [intros _; apply N; [discriminate|lia]|]. intros k. unfold scan_u. destruct (sign _) as [neg t]. destruct t as [|d t]; [discriminate|]. destruct (digit_in 10 d); [|discriminate].
  set (v := u32 _). assert (V : 0 <= v) by (unfold v, u32; apply Z.mod_pos_bound; lia). clearbody v.
  destruct (Z.eqb_spec v 0); cbn [orb]; [discriminate|]. destruct (Z.ltb_spec count v); [discriminate|]. intros Q. injection Q as <-. lia.
Qed.

(** ** Applications that can be used *)
Definition usable (a : emvapp) : Prop := wf_field (a_aid a) /\ fields_ok (a_tlvs a) /\ In 0 (a_name a).
Lemma p_s_terminated s : In 0 s -> exists t, p_s s = Ret t.
Proof.
  induction s as [|c s IH]; [intros []|]. intros I. cbn [p_s]. destruct (Z.eqb_spec c 0) as [->|N]; [eexists; reflexivity|].
  destruct I as [->|I]; [congruence|]. destruct (IH I) as (t & ->). cbn [bind]. eexists. reflexivity.
Qed.
Lemma forest_short d enc ts : forest d enc ts -> Forall (fun f => (length (f_val f) <= length enc)%nat) (flat_map leaves ts).
Proof.
  assert (M : forall n m l, (n <= m)%nat -> Forall (fun f => (length (f_val f) <= n)%nat) l -> Forall (fun f => (length (f_val f) <= m)%nat) l)
    by (intros n m l L F; eapply Forall_impl; [|exact F]; cbv beta; intros; lia).
  induction 1 as [|enc tag flags v encs ts He Hf Hr IH|enc tag flags v kids encs ts He Hf Hk IHk Hr IH|id v kids encs ts Hd Hid Hc Hk IHk Hr IH].
  - constructor.
  - cbn [flat_map leaves app]. rewrite app_length. constructor; [cbn [f_val]; apply encodes_vlen in He; lia|]. eapply M; [|exact IH]. lia.
  - cbn [flat_map leaves]. rewrite app_length. apply Forall_app. split; [eapply M; [|exact IHk]; apply encodes_vlen in He; lia|eapply M; [|exact IH]; lia].
  - cbn [flat_map leaves]. rewrite app_length. cbn [length]. rewrite app_length. apply Forall_app. split; [eapply M; [|exact IHk]; lia|eapply M; [|exact IH]; lia].
Qed.
Lemma forest_ok d enc ts : forest d enc ts -> Zlen enc < 16777216 -> fields_ok (flat_map leaves ts).
Proof.
  intros F L. split.
  - eapply forest_wf; [exact F|]. unfold small, Zlen in *. lia.
  - eapply Forall_impl; [|exact (forest_short d enc ts F)]. cbv beta. intros f Q. unfold Zlen in *. lia.
Qed.
Lemma named_terminated tables tag a : good_app tables tag a -> In 0 (a_name a).
Proof. intros (_ & (txt & _ & (_ & E)) & _). rewrite E. apply in_or_app. right. left. reflexivity. Qed.
Lemma pse_usable junk pse entry a : length junk = 17%nat -> Forall wf_field pse -> bytes entry -> Zlen entry < 16777216 ->
  app_create_from_pse junk pse entry = Ret (Some a) -> usable a.
Proof.
  intros Lj Wp B L E. assert (Sm : small entry) by (unfold small, Zlen in *; lia). split; [exact (proj2 (pse_app_wf junk pse entry a Lj Wp B Sm E))|].
  destruct (create_pse junk pse entry Lj Wp B Sm) as [(a' & ts & E' & Fo & Et & Ga)|(E' & _)]; rewrite E in E'; [|discriminate]. injection E' as <-.
  split; [rewrite Et; eapply forest_ok; eassumption|eapply named_terminated; exact Ga].
Qed.
Lemma fci_usable junk fci a : length junk = 17%nat -> bytes fci -> Zlen fci < 16777216 -> app_create_from_fci junk fci = Ret (Some a) -> usable a.
Proof.
  intros Lj B L E. assert (Sm : small fci) by (unfold small, Zlen in *; lia). split; [exact (proj2 (fci_app_wf junk fci a Lj B Sm E))|].
  assert (Ne : fci <> []) by (intros ->; discriminate).
  destruct (create_fci junk fci Lj B Sm Ne) as [(a' & t & ts & E' & P & _ & Fo & Et & Ga)|(E' & _)]; rewrite E in E'; [|discriminate]. injection E' as <-.
  destruct (piece_val fci t P B) as [_ Lv]. split; [rewrite Et; eapply forest_ok; [exact Fo|unfold Zlen in *; lia]|eapply named_terminated; exact Ga].
Qed.
Lemma record_usable junk pse supported sw data l : length junk = 17%nat -> Forall wf_field pse -> bytes data -> Zlen data <= 256 ->
  record_apps junk pse supported (sw, data) l -> Forall usable l.
Proof.
  intros Lj Wp B L R. remember (sw, data) as rec eqn:Er. destruct R as [p t trail ps ts rest ls P Ht Ev F2 _ Fe|d _|sw' d _]; [|constructor|constructor].
  injection Er as _ <-. apply bytes_app in B. destruct B as [Bp _]. destruct (piece_val p t P Bp) as [Bv Lv]. rewrite Ev in Bv, Lv. apply bytes_app in Bv. destruct Bv as [Bv _].
  rewrite app_length in Lv. unfold Zlen in L. rewrite app_length in L. clear Ev P Ht.
  assert (Lc : (length (List.concat ps) < 256)%nat) by lia. clear L Lv Bp. revert ps Bv F2 Lc. induction Fe as [|t' l' ts ls He Fe IH]; intros ps Bv F2 Lc; [constructor|].
  inversion F2 as [|q ? ps' ? Pq F2']; subst. cbn [List.concat] in *. apply bytes_app in Bv. destruct Bv as [Bq Bps]. rewrite app_length in Lc. apply Forall_app. split; [|apply (IH ps'); [exact Bps|exact F2'|lia]].
  destruct He as [?|? ?|? ? ? ?|a g Ht Ec Ig Mg]; try constructor; [|constructor]. destruct (piece_val q t' Pq Bq) as [Bt Lt]. eapply pse_usable; [exact Lj|exact Wp|exact Bt|unfold Zlen; lia|exact Ec].
Qed.

(** ** The fields of the terminal *)
Lemma field_ok_of tag v : bytes v -> Zlen v < 256 -> wf_field (fld tag v 0) /\ Zlen (f_val (fld tag v 0)) < 16777216.
Proof. intros B L. unfold fld, wf_field, small. cbn [f_len f_val]. repeat split; auto; lia. Qed.
Lemma bcd_bytes v : bcd v -> bytes v.
Proof. intros B. eapply Forall_impl; [|exact B]. intros b Hb. unfold is_byte. cbn beta in Hb. lia. Qed.
Lemma params_ok (b6 : list Z) t seq type amount other : length b6 = 6%nat -> calendar t -> 0 <= seq < 100000000 -> is_byte type ->
  0 <= amount < 4294967296 -> 0 <= other < 4294967296 -> exists fs, load_params b6 t seq type amount other = Ret fs /\ fields_ok fs.
Proof.
  intros L C Q Ty A O. destruct (load_params_spec b6 t seq type amount other L C Q Ty A O) as (sq & y & mo & d & h & mi & se & an & ab & on & ob & E & F1 & F2 & F3 & F4 & F5 & F6 & F7 & F8 & F9 & F10 & F11).
  eexists. split; [exact E|]. clear E.
  assert (N : forall n v o tag, in_format_n n v o -> (n <= 6)%nat -> wf_field (fld tag o 0) /\ Zlen (f_val (fld tag o 0)) < 16777216).
  { intros n v o tag (K1 & K2 & _) Le. apply field_ok_of; [apply bcd_bytes; exact K2|unfold Zlen; lia]. }
  assert (B : forall n v o tag, in_format_b n v o -> (n <= 6)%nat -> wf_field (fld tag o 0) /\ Zlen (f_val (fld tag o 0)) < 16777216).
  { intros n v o tag (K1 & K2 & _) Le. apply field_ok_of; [exact K2|unfold Zlen; lia]. }
  assert (T3 : forall a b c tag va vb vc, in_format_n 1 va [a] -> in_format_n 1 vb [b] -> in_format_n 1 vc [c] -> wf_field (fld tag [a; b; c] 0) /\ Zlen (f_val (fld tag [a; b; c] 0)) < 16777216).
  { intros a b c tag va vb vc (_ & K1 & _) (_ & K2 & _) (_ & K3 & _). apply bcd_bytes in K1, K2, K3. apply field_ok_of; [|reflexivity].
    apply Forall_inv in K1, K2, K3. repeat (apply bytes_cons; [assumption|]). constructor. }
  assert (Al : Forall (fun f => wf_field f /\ Zlen (f_val f) < 16777216)
    [fld 0x9F41 sq 0; fld 0x9A [y; mo; d] 0; fld 0x9F21 [h; mi; se] 0; fld 0x5F2A [0x09; 0x78] 0; fld 0x5F36 [0x02] 0; fld 0x9C [type] 0; fld 0x9F02 an 0; fld 0x81 ab 0; fld 0x9F03 on 0; fld 0x9F04 ob 0]).
  { repeat (apply Forall_cons; [first [eapply N; [eassumption|lia] | eapply B; [eassumption|lia] | eapply T3; eassumption | apply field_ok_of; [repeat constructor; unfold is_byte in *; lia|reflexivity]]|]). constructor. }
  split; (eapply Forall_impl; [|exact Al]; intros ? []; assumption).
Qed.
Lemma config_ok : fields_ok tool_config.
Proof.
  assert (G : forallb (fun f => (f_len f =? Zlen (f_val f)) && (Zlen (f_val f) <? 256) && forallb (fun b => (0 <=? b) && (b <? 256)) (f_val f))%bool tool_config = true) by (vm_compute; reflexivity).
  rewrite forallb_forall in G.
  assert (Al : Forall (fun f => wf_field f /\ Zlen (f_val f) < 16777216) tool_config).
  { apply Forall_forall. intros f If. specialize (G f If). apply andb_prop in G. destruct G as [G B]. rewrite forallb_forall in B.
    assert (Bb : bytes (f_val f)) by (apply Forall_forall; intros b Ib; specialize (B b Ib); unfold is_byte; lia). unfold wf_field, small. repeat split; auto; lia. }
  split; (eapply Forall_impl; [|exact Al]; intros ? []; assumption).
Qed.
Lemma aids_wf : Forall wf_field tool_aids.
Proof.
  assert (G : forallb (fun f => (f_len f =? Zlen (f_val f)) && (Zlen (f_val f) <? 256) && forallb (fun b => (0 <=? b) && (b <? 256)) (f_val f))%bool tool_aids = true) by (vm_compute; reflexivity).
  rewrite forallb_forall in G. apply Forall_forall. intros f If. specialize (G f If). apply andb_prop in G. destruct G as [G B]. rewrite forallb_forall in B.
  assert (Bb : bytes (f_val f)) by (apply Forall_forall; intros b Ib; specialize (B b Ib); unfold is_byte; lia). unfold wf_field, small. repeat split; auto; lia.
Qed.

Section Safe.
Context {T : Type} (x : transport T) (W : wf_transport x) (junk : list Z) (Lj : length junk = 17%nat).
(** The card accepts SELECT, or READ RECORD, without any data (C64, C68). *)
Definition blank : Prop :=
  (exists s name a, (x_select x s name = Ret a \/ x_next x s name = Ret a) /\ n_ret a = 0 /\ (n_sw a = 0x9000 \/ n_sw a = 0x6283) /\ n_data a = []) \/
  (exists s sfi rec a, x_read x s sfi rec = Ret a /\ n_ret a = 0 /\ n_sw a = 0x9000 /\ n_data a = []).
Lemma directory_usable pse supported sfi s rec recs s' ls : Forall wf_field pse -> is_byte sfi -> is_byte rec -> directory x sfi s rec recs s' ->
  Forall2 (record_apps junk pse supported) recs ls -> Forall usable (List.concat ls).
Proof.
  intros Wp Bs Br D. revert Br ls. induction D as [s rec a E R S|s rec a recs s' E R S D IH]; intros Br ls F2; inversion F2 as [|? l ? ls' Hr F2']; subst; [constructor|].
  cbn [List.concat]. apply Forall_app. split; [|apply IH; [unfold is_byte; apply Z.mod_pos_bound; lia|exact F2']].
  destruct W as (_ & _ & Wr & _). specialize (Wr s sfi rec Bs Br). rewrite E in Wr. destruct (Wr R) as [Bd Ld]. eapply record_usable; [exact Lj|exact Wp|exact Bd|exact Ld|exact Hr].
Qed.
Lemma read_pse_usable fuel s supported : Forall wf_field supported ->
  match read_pse x junk fuel s supported [] with UB => False | NoFuel => True | Ret (r, apps, s') => Forall usable apps end.
Proof.
  intros Ws. destruct (read_pse x junk fuel s supported []) as [[[r apps] s']| |] eqn:E; [|exfalso|exact I].
  - destruct (Z.eq_dec r 0) as [->|N]; [|rewrite (read_pse_empty x junk fuel s supported r apps s' E N); constructor].
    unfold read_pse in E. apply bind_Ret_inv in E as (a & Ea & E).
    destruct (Z.eqb_spec (n_ret a) 0) as [R0|R0]; cbn [negb] in E; [|discriminate].
    destruct (_ =? _); [discriminate|]. destruct (_ =? _); [discriminate|]. destruct (_ =? _); [discriminate|].
    destruct (negb _); [discriminate|].
    pose proof W as (W1 & _). specialize (W1 s EMV_PSE pse_bytes). rewrite Ea in W1. destruct (W1 R0) as [Bd Ld].
    pose proof (small256 _ Ld) as Sd. destruct (parse_any (n_data a) [] Bd Sd) as (r1 & pse & Ep & Hr & Ff & _). cbn [app] in Ep.
    rewrite Ep in E. cbn [bind] in E. apply bind_Ret_inv in E as ([[r2 apps2] s2] & E2 & E). injection E as -> <- ->. cbn [Z.eqb].
    destruct (r1 <? 0); [discriminate|]. destruct (find_tag 0x88 pse) as [f|] eqn:Ef; [|discriminate].
    destruct (negb _); [discriminate|]. apply bind_Ret_inv in E2 as (sfi & Es & E2).
    assert (Wp : Forall wf_field pse) by (eapply Forall_impl; [|exact Ff]; intros g; now apply field_of_wf).
    assert (Bs : is_byte sfi).
    { apply find_tag_spec in Ef. assert (Wf : wf_field f) by (rewrite Forall_forall in Wp; apply Wp; eapply first_with_in; exact Ef).
      destruct Wf as (_ & Bf & _). eapply rd_byte; eauto. }
    pose proof (pse_loop_spec x W junk Lj supported Ws pse sfi Wp Bs fuel (n_st a) 1 [] ltac:(unfold is_byte; lia)) as K.
    rewrite E2 in K. destruct K as [(_ & recs & ls & D & Fr & ->)|(K & _)]; [|discriminate]. cbn [app].
    eapply directory_usable; [exact Wp|exact Bs| |exact D|exact Fr]. unfold is_byte; lia.
  - destruct (x_select x s EMV_PSE) as [a| |] eqn:Ea.
    + destruct (Z.eq_dec (n_ret a) 0) as [R0|R0].
      * destruct (Z.eq_dec (n_sw a) 0x9000) as [S0|S0].
        -- destruct (C28_directory T x W junk Lj fuel s supported [] a Ws Ea R0 S0) as (pse & _ & _ & K1 & K2 & K3).
           destruct (find_tag 0x88 pse) as [f|] eqn:Ef.
           ++ apply find_tag_spec in Ef. destruct (Z.eq_dec (Zlen (f_val f)) 1) as [L1|L1]; [|rewrite (K2 f Ef L1) in E; discriminate].
              destruct (f_val f) as [|sfi [|? ?]] eqn:Ev; unfold Zlen in L1; cbn [length] in L1; try lia. destruct (K3 f sfi Ef Ev) as (_ & _ & K). rewrite E in K. exact K.
           ++ assert (A : absent 0x88 pse) by (apply find_tag_none in Ef; exact Ef). rewrite (K1 A) in E. discriminate.
        -- destruct (proj2 (C28_select_status T x junk fuel s supported [] a Ea) R0 S0) as (r & _ & E'). congruence.
      * rewrite (proj1 (C28_select_status T x junk fuel s supported [] a Ea) R0) in E. discriminate.
    + destruct W as (W1 & _). specialize (W1 s EMV_PSE pse_bytes). rewrite Ea in W1. exact W1.
    + unfold read_pse in E. rewrite Ea in E. discriminate.
Qed.

Lemma fci_ub fci : length junk = 17%nat -> bytes fci -> small fci -> app_create_from_fci junk fci = UB -> fci = [].
Proof.
  intros L B Sm U. destruct fci as [|b fci]; [reflexivity|]. exfalso.
  destruct (create_fci junk (b :: fci) L B Sm) as [(a & t & ts & E & _)|(E & _)]; [discriminate| |]; rewrite E in U; discriminate.
Qed.
Lemma find_usable fuel : forall s aids exact apps, Forall wf_field aids -> Forall usable apps ->
  match find_loop x junk fuel s aids exact apps with UB => blank | NoFuel => True | Ret (r, apps', s') => Forall usable apps' end.
Proof.
  induction fuel as [|fuel IH]; intros s aids exact apps Wa Ua; [exact I|]. cbn [find_loop]. destruct aids as [|aid rest]; [exact Ua|].
  inversion Wa as [|? ? Wf Wr]; subst. rewrite (wf_sub aid Wf). cbn [bind]. pose proof W as (W1 & W2 & _). pose proof Wf as (_ & Bf & _). specialize (W1 s _ Bf). specialize (W2 s _ Bf).
  assert (G : good_answer (if exact then x_select x s (f_val aid) else x_next x s (f_val aid))) by (destruct exact; assumption).
  destruct (if exact then x_select x s (f_val aid) else x_next x s (f_val aid)) as [a| |] eqn:Ea; [|destruct G|exact I]. cbn [bind]. cbn [good_answer] in G.
  destruct (Z.eqb_spec (n_ret a) 0) as [R0|R0]; cbn [negb]; [|exact Ua]. destruct (exact && _)%bool; [exact Ua|].
  destruct (G R0) as [Bd Ld].
  destruct (Z.eqb_spec (n_sw a) 0x9000) as [S0|S0]; destruct (Z.eqb_spec (n_sw a) 0x6283) as [S1|S1]; cbn [negb andb]; try lia; [| |apply IH; assumption].
  all: destruct (app_create_from_fci junk (n_data a)) as [[ap|]| |] eqn:Ec; cbn [bind]; try exact I; try (apply IH; assumption).
  all: try (assert (Ua' : usable ap) by (eapply fci_usable; [exact Lj|exact Bd|lia|exact Ec])).
  all: try (assert (Uas : Forall usable (apps ++ [ap])) by (apply Forall_app; split; [exact Ua|constructor; [exact Ua'|constructor]])).
  all: try (destruct (_ =? _); [apply IH; assumption|]; destruct (_ =? _); apply IH; assumption).
  all: left; exists s, (f_val aid), a; (split; [destruct exact; auto|]; split; [exact R0|]; split; [auto|]; eapply fci_ub; [exact Lj|exact Bd|exact (small256 _ Ld)|exact Ec]).
Qed.
Lemma build_usable fuel s c : Forall wf_field (k_aids c) ->
  match build_candidate_list x junk fuel s c [] with UB => blank | NoFuel => True | Ret (r, apps, s') => Forall usable apps end.
Proof.
  intros Wa. unfold build_candidate_list. pose proof (read_pse_usable fuel s (k_aids c) Wa) as K. destruct (read_pse x junk fuel s (k_aids c) []) as [[[r apps] s1]| |]; [|destruct K|exact I].
  cbn [bind]. destruct (r <? 0); [exact K|]. destruct apps as [|a0 apps].
  - pose proof (find_usable fuel s1 (k_aids c) true [] Wa (Forall_nil _)) as F. unfold find_supported_apps. destruct (find_loop x junk fuel s1 (k_aids c) true []) as [[[r2 apps2] s2]| |]; [|exact F|exact I].
    cbn [bind]. destruct (negb _); [exact F|]. destruct apps2 as [|b apps2]; [exact F|].
    rewrite Forall_forall in *. intros y Iy. apply F. eapply Permutation_in; [apply sort_perm|exact Iy].
  - cbn [bind Z.eqb negb]. rewrite Forall_forall in *. intros y Iy. apply K. eapply Permutation_in; [apply sort_perm|exact Iy].
Qed.

Lemma inv_ret {A} (a b : A) : Ret a = Ret b -> a = b.
Proof. now injection 1. Qed.

(** ** The loop *)
Context (buf : list Z) (Lb : length buf = 255%nat).
Lemma menu_ok apps : Forall usable apps -> forall k, exists m, menu k apps = Ret m.
Proof.
  induction 1 as [|a apps (_ & _ & Na) _ IH]; intros k; [eexists; reflexivity|]. cbn [menu]. destruct (p_s_terminated _ Na) as (n & ->). cbn [bind].
  destruct (IH (k + 1)) as (m & ->). cbn [bind]. eexists. reflexivity.
Qed.
Lemma print_apps_ok apps : Forall usable apps -> exists ev, print_apps apps = Ret ev.
Proof.
  induction 1 as [|a apps (Wa & _ & Na) _ (ev & IH)]; [eexists; reflexivity|]. cbn [print_apps]. unfold print_emv_app. rewrite (wf_sub _ Wa). cbn [bind].
  destruct (p_s_terminated _ Na) as (n & ->). cbn [bind]. rewrite IH. cbn [bind]. eexists. reflexivity.
Qed.
(** The application that is in use after the loop. *)
Definition in_use (apps : list emvapp) (c : ctx) : Prop :=
  exists a b gpo f g, In a apps /\ f_val (a_aid b) = f_val (a_aid a) /\ fields_ok (a_tlvs b) /\ k_icc c = a_tlvs b ++ gpo /\ Forall wf_field gpo /\
    first_with 0x82 gpo f /\ first_with 0x94 gpo g /\ k_term c = terminal_data 0x05 (f_val (a_aid a)).
Definition same_setup (c c' : ctx) : Prop := k_ttl c' = k_ttl c /\ k_config c' = k_config c /\ k_aids c' = k_aids c /\ k_params c' = k_params c.
Lemma gpo_wf data fs : small data -> bytes data -> gpo_fields false data fs -> Forall wf_field fs.
Proof.
  intros Sm B G. destruct G as [enc flags aip afl trail E1 E2 E3 E4 E5|enc flags v ts trail E1 E2 Fo|enc t ts trail _ E1 P _ Fo]; subst data.
  - pose proof (encodes_vlen _ _ _ _ E2) as L. assert (Bv : bytes (aip ++ afl)) by (destruct E2; assumption). apply bytes_app in Bv. destruct Bv.
    unfold small, Zlen in *. rewrite !app_length in *. constructor; [|constructor; [|constructor]]; unfold wf_field, small, Zlen; cbn [f_len f_val]; repeat split; auto; lia.
  - eapply forest_wf; [exact Fo|]. apply encodes_vlen in E2. unfold small, Zlen in *. rewrite app_length in Sm. lia.
  - apply bytes_app in B. destruct B as [B _]. destruct (piece_val enc t P B) as [_ L]. eapply forest_wf; [exact Fo|]. unfold small, Zlen in *. rewrite app_length in Sm. lia.
Qed.
Lemma step apps s c k : Forall usable apps -> fields_ok (k_params c) -> fields_ok (k_config c) ->
  match select_application x junk s c apps k with
  | UB => blank | NoFuel => True
  | Ret (r, apps', c', s') => same_setup c c' /\ Forall usable apps' /\
    ((k < length apps)%nat -> exists a, nth_error apps k = Some a /\ Permutation apps (a :: apps') /\
       (r = 0 -> exists b, k_app c' = Some (b, InApp) /\ usable b /\ f_val (a_aid b) = f_val (a_aid a))) /\
    ((length apps <= k)%nat -> r < 0 /\ apps' = apps) /\ (r = TRY_AGAIN -> apps' <> [] /\ (k < length apps)%nat)
  end.
Proof.
  intros U Fp Fc. destruct (Nat.ltb_spec k (length apps)) as [L|L].
  - destruct (nth_error apps k) as [a|] eqn:Na; [|apply nth_error_None in Na; lia]. destruct (nth_error_split apps k Na) as (pre & post & -> & Lp).
    apply Forall_app in U. destruct U as [U1 U2]. inversion U2 as [|? ? Ua U3]; subst.
    pose proof (select_application_spec x W junk Lj s c pre a post (proj1 Ua)) as K.
    destruct (select_application x junk s c (pre ++ a :: post) (length pre)) as [[[[r apps'] c'] s']| |].
    + destruct K as (-> & Ec & K). injection Ec as E1 E2 E3 E4 E5 E6. split; [repeat split; congruence|]. split; [apply Forall_app; split; assumption|].
      assert (TA : r = TRY_AGAIN -> pre ++ post <> []).
      { intros ->. assert (N : try_next (pre ++ post) TRY_AGAIN).
        { destruct K as [(_ & _ & _ & K)|(_ & tr & sel & _ & [(_ & K & _)|[(_ & K & _)|[(_ & _ & K & _)|(_ & K & _)]]])]; [exact K|discriminate K|discriminate K|discriminate K|exact K]. }
        inversion N; congruence. }
      split; [|split; [lia|intros Q; split; [exact (TA Q)|exact L]]].
      intros _. exists a. split; [reflexivity|]. split; [symmetry; apply Permutation_middle|].
      assert (N0 : ~ try_next (pre ++ post) 0) by (intro N; inversion N).
      intros ->. destruct K as [(_ & _ & _ & K)|(_ & tr & sel & Es & [(T0 & _ & b & -> & Ek & Ev)|[(_ & K & _)|[(_ & _ & K & _)|(_ & K & _)]]])];
        [destruct (N0 K)| |discriminate K|discriminate K|destruct (N0 K)].
      exists b. split; [exact Ek|]. split; [|exact Ev]. subst tr.
      pose proof (select_app_spec x W junk Lj s (f_val (a_aid a)) ltac:(apply Ua)) as Q. rewrite Es in Q.
      destruct Q as [(_ & _ & Q & _)|(_ & n & En & _ & [(_ & _ & Q)|[(_ & _ & _ & Q)|[(_ & _ & _ & _ & Q)|(R0 & _ & ap & Ec & [(_ & _ & Q)|(_ & _ & Q)])]]])]; try discriminate Q.
      injection Q as <-. pose proof W as (W1 & _). specialize (W1 s (f_val (a_aid a)) ltac:(apply Ua)). rewrite En in W1. destruct (W1 R0). eapply fci_usable; [exact Lj|eassumption|lia|exact Ec].
    + destruct K as (n & En & R0 & S0 & D0). left. exists s, (f_val (a_aid a)), n. auto.
    + exact I.
  - destruct (select_application_index x junk s c apps k L) as (c' & E & Ek). pose proof E as E'. rewrite E.
    unfold select_application, remove_nth in E'. rewrite (proj2 (nth_error_None apps k) L) in E'. injection E' as <-.
    split; [repeat split|]. split; [exact U|]. split; [lia|]. split; [intros _; split; reflexivity|discriminate].
Qed.

Lemma command_bytes sources fields (d : list Z) : Forall (Forall (fun f => bytes (f_val f))) sources -> gpo_command_data sources fields (Some d) -> bytes d.
Proof.
  intros Bs G. inversion G as [|f es vs F D Ne Fe L]; subst.
  assert (Bv : bytes (List.concat vs)).
  { clear -Fe Bs. induction Fe as [|e v es vs He Fe IH]; cbn [List.concat]; [constructor|]. apply bytes_app_intro; [eapply entry_bytes; eauto|auto]. }
  apply bytes_cons; [unfold is_byte; lia|]. apply bytes_app_intro; [|exact Bv]. unfold ber_length.
  assert (0 <= Zlen (List.concat vs)) by (unfold Zlen; lia).
  destruct (_ <? _); repeat (apply bytes_cons; [unfold is_byte; lia|]); constructor.
Qed.
Lemma fields_bytes l : fields_ok l -> Forall (fun f => bytes (f_val f)) l.
Proof. intros (W0 & _). eapply Forall_impl; [|exact W0]. intros g (_ & Bg & _). exact Bg. Qed.
Lemma start s c b pos : is_byte pos -> fields_ok (k_params c) -> fields_ok (k_config c) -> k_app c = Some (b, InApp) -> usable b ->
  match initiate x buf s c pos with
  | UB => False | NoFuel => True
  | Ret (r, c', s') => same_setup c c' /\
    (r = 0 -> exists gpo f g, k_icc c' = a_tlvs b ++ gpo /\ Forall wf_field gpo /\ first_with 0x82 gpo f /\ first_with 0x94 gpo g /\ k_term c' = terminal_data pos (f_val (a_aid b)))
  end.
Proof.
  intros Bp Fp Fc Ek (Ub1 & Ub2 & _). pose proof (initiate_spec x W junk Lj buf s c pos b Lb Bp Ek Ub1 Ub2 Fp Fc) as K. cbv zeta in K.
  destruct (initiate x buf s c pos) as [[[r c'] s']| |]; [|destruct K|exact I]. destruct K as (Ec & K). injection Ec as E1 E2 E3 E4 E5. split; [repeat split; assumption|].
  intros ->. destruct K as [(_ & K & _)|(d & tr & gpo & p & q & Gd & Eg & [(T0 & _ & Ei & _)|(Tn & K & _)])]; [discriminate K| |].
  - assert (Bd : match d with Some d => bytes d | None => True end).
    { destruct d as [d|]; [|exact I]. eapply command_bytes; [|exact Gd]. constructor; [apply fields_bytes; assumption|]. constructor; [apply fields_bytes; assumption|].
      constructor; [|constructor]. destruct Ub1 as (_ & Bb & _). repeat constructor; cbn [f_val]; auto; unfold is_byte; lia. }
    pose proof (gpo_spec x W junk Lj s d [] Bd) as G. rewrite Eg in G. subst tr.
    destruct G as [(G & _)|(_ & a & Ea & _ & [(_ & G & _)|[(_ & _ & G & _)|[(_ & _ & _ & G & _)|[(_ & _ & G & _)|[(_ & _ & G & _)|(R0 & _ & _ & fs & f & g & Gf & F8 & F9 & El & _)]]]]])]; try discriminate G.
    cbn [app] in El. subst gpo. exists fs, f, g. rewrite E5. split; [exact Ei|]. split; [|auto].
    pose proof W as (_ & _ & _ & Wg). specialize (Wg s d Bd). rewrite Ea in Wg. destruct (Wg R0) as [Ba La]. exact (gpo_wf _ _ (small256 _ La) Ba Gf).
  - exfalso. revert K. unfold gpo_outcome. destruct (tr =? 13); [discriminate|]. destruct (_ || _)%bool; discriminate.
Qed.

(** "ICC data" is not among the messages of the steps before. *)
Definition icc_line : event := Say (newline ++ lit "ICC data:" ++ newline).
Lemma icc_report r : report r <> icc_line.
Proof. unfold report, icc_line. destruct (r <? 0); intros E; apply (f_equal (fun e => match e with Say (a :: _) => a | _ => 0 end)) in E; vm_compute in E; discriminate. Qed.
Lemma icc_select l : Say (newline ++ lit "Select application:" ++ l) <> icc_line.
Proof. unfold icc_line. intros E. apply (f_equal (fun e => match e with Say (_ :: a :: _) => a | _ => 0 end)) in E. vm_compute in E. discriminate. Qed.
Lemma icc_app a e : print_emv_app a = Ret e -> Say e <> icc_line.
Proof.
  unfold print_emv_app. intros E. apply bind_Ret_inv in E as (v & _ & E). apply bind_Ret_inv in E as (n & _ & E). apply inv_ret in E. rewrite <- E.
  unfold icc_line. intros Q. apply (f_equal (fun e => match e with Say (a :: _) => a | _ => 0 end)) in Q. vm_compute in Q. discriminate.
Qed.
Lemma icc_apps apps : forall ev, print_apps apps = Ret ev -> ~ In icc_line ev.
Proof.
  induction apps as [|a apps IH]; intros ev E; cbn [print_apps] in E; [apply inv_ret in E; subst; auto|].
  apply bind_Ret_inv in E as (e & Ea & E). apply bind_Ret_inv in E as (l & El & E). apply inv_ret in E. subst ev. intros [Q|Q]; [exact (icc_app _ _ Ea Q)|exact (IH _ El Q)].
Qed.
Ltac said := intros E; apply (f_equal (fun e => match e with Say l => l | _ => [] end)) in E; vm_compute in E; discriminate.
Lemma icc_first : Say (newline ++ lit "Select first application:" ++ newline) <> icc_line. Proof. unfold icc_line. said. Qed.
Lemma icc_invalid : line "Invalid input. Try again." <> icc_line. Proof. unfold icc_line, line. said. Qed.
Lemma icc_initiate : Say (newline ++ lit "Initiate application processing:" ++ newline) <> icc_line. Proof. unfold icc_line. said. Qed.

Lemma loop_safe fuel : forall s c apps required i, Forall usable apps -> fields_ok (k_params c) -> fields_ok (k_config c) ->
  match select_loop x junk buf fuel s c apps required i with
  | UB => blank | NoFuel => True
  | Ret (ok, ev, apps', c', s', i') => same_setup c c' /\ (exists tried, Permutation apps (tried ++ apps')) /\ ~ In icc_line ev /\ (ok = true -> in_use apps c')
  end.
Proof.
  induction fuel as [|fuel IH]; intros s c apps required i U Fp Fc; [exact I|]. cbn [select_loop].
  set (again := fun (ev : list event) s c apps i => let* (b, ev', apps, c, s, i) := select_loop x junk buf fuel s c apps required i in Ret (b, ev ++ ev', apps, c, s, i)).
  set (goal_of := fun (c : ctx) (apps : list emvapp) (o : out (bool * list event * list emvapp * ctx * T * list Z)) => match o with
    | UB => blank | NoFuel => True
    | Ret (ok, ev, apps', c', s', i') => same_setup c c' /\ (exists tried, Permutation apps (tried ++ apps')) /\ ~ In icc_line ev /\ (ok = true -> in_use apps c') end).
  assert (Ag : forall ev s1 c1 apps1 i1 tried, same_setup c c1 -> Permutation apps (tried ++ apps1) -> ~ In icc_line ev -> goal_of c apps (again ev s1 c1 apps1 i1)).
  { intros ev s1 c1 apps1 i1 tried Sc P Ne. unfold again. destruct Sc as (S1 & S2 & S3 & S4).
    assert (U1 : Forall usable apps1). { rewrite Forall_forall in *. intros y Iy. apply U. eapply Permutation_in; [symmetry; exact P|]. apply in_or_app. auto. }
    pose proof (IH s1 c1 apps1 required i1 U1 ltac:(rewrite S4; exact Fp) ltac:(rewrite S2; exact Fc)) as K.
    destruct (select_loop x junk buf fuel s1 c1 apps1 required i1) as [[[[[[ok ev'] apps2] c2] s2] i2]| |]; cbn [bind]; [|exact K|exact I].
    cbn [goal_of]. destruct K as ((R1 & R2 & R3 & R4) & (t2 & P2) & N2 & K). split; [repeat split; congruence|]. split; [|split].
    - exists (tried ++ t2). rewrite <- app_assoc. rewrite <- P2. exact P.
    - intros Q. apply in_app_or in Q. tauto.
    - intros Ok. destruct (K Ok) as (a & b & gpo & f & g & Ia & K'). exists a, b, gpo, f, g. split; [|exact K'].
      eapply Permutation_in; [symmetry; exact P|]. apply in_or_app. auto. }
  assert (First : forall first choice i', ~ In icc_line first -> goal_of c apps (match choice with
    | None => again (first ++ [line "Invalid input. Try again."]) s c apps i'
    | Some index =>
      let* (r, apps, c, s) := select_application x junk s c apps index in
      if r <? 0 then Ret (false, first ++ [report r], apps, c, s, i')
      else if 0 <? r then
        if r =? TRY_AGAIN then again (first ++ [report r]) s c apps i' else Ret (false, first ++ [report r], apps, c, s, i')
      else
      match k_app c with
      | None => Ret (false, first, apps, c, s, i')
      | Some _ =>
        let first := first ++ [Say (newline ++ lit "Initiate application processing:" ++ newline)] in
        let* (r, c, s) := initiate x buf s c 0x05 in
        if r <? 0 then Ret (false, first ++ [report r], apps, c, s, i')
        else if 0 <? r then
          if (r =? GPO_NOT_ACCEPTED) && negb (match apps with [] => true | _ => false end)
          then again (first ++ [report r]) s c apps i'
          else Ret (false, first ++ [report r], apps, c, s, i')
        else Ret (true, first, apps, c, s, i')
      end
    end)).
  { intros first choice i' Nf.
    assert (Nr : forall l r, ~ In icc_line l -> ~ In icc_line (l ++ [report r])).
    { intros l r Nl Q. apply in_app_or in Q. destruct Q as [Q|[Q|[]]]; [exact (Nl Q)|exact (icc_report r Q)]. }
    destruct choice as [index|].
    2:{ apply (Ag _ _ _ _ _ []); [repeat split|reflexivity|]. intros Q. apply in_app_or in Q. destruct Q as [Q|[Q|[]]]; [exact (Nf Q)|exact (icc_invalid Q)]. }
    pose proof (step apps s c index U Fp Fc) as K. destruct (select_application x junk s c apps index) as [[[[r apps1] c1] s1]| |]; cbn [bind]; [|exact K|exact I].
    destruct K as (Sc & U1 & K1 & K2 & K3).
    assert (P : exists tried, Permutation apps (tried ++ apps1)).
    { destruct (Nat.ltb_spec index (length apps)) as [L|L]; [destruct (K1 L) as (a & _ & P & _); exists [a]; exact P|]. exists []. now rewrite (proj2 (K2 L)). }
    destruct P as (tried & P). destruct (Z.ltb_spec r 0) as [R|R].
    { cbn [goal_of]. split; [exact Sc|]. split; [eauto|]. split; [auto|discriminate]. }
    destruct (Z.ltb_spec 0 r) as [R'|R'].
    { destruct (r =? TRY_AGAIN); [eapply Ag; eauto|]. cbn [goal_of]. split; [exact Sc|]. split; [eauto|]. split; [auto|discriminate]. }
    assert (r = 0) by lia. subst r. destruct (Nat.ltb_spec index (length apps)) as [L|L]; [|destruct (K2 L); lia].
    destruct (K1 L) as (a & Na & _ & Kb). destruct (Kb eq_refl) as (b & Ek & Ub & Ev). rewrite Ek. pose proof Sc as (S1 & S2 & S3 & S4).
    pose proof (start s1 c1 b 5 ltac:(unfold is_byte; lia) ltac:(rewrite S4; exact Fp) ltac:(rewrite S2; exact Fc) Ek Ub) as Q. cbv zeta.
    destruct (initiate x buf s1 c1 5) as [[[r c2] s2]| |]; cbn [bind]; [|destruct Q|exact I].
    destruct Q as ((Q1 & Q2 & Q3 & Q4) & Q). assert (Sc2 : same_setup c c2) by (repeat split; congruence).
    assert (Ni : ~ In icc_line (first ++ [Say (newline ++ lit "Initiate application processing:" ++ newline)])).
    { intros I0. apply in_app_or in I0. destruct I0 as [I0|[I0|[]]]; [exact (Nf I0)|exact (icc_initiate I0)]. }
    destruct (Z.ltb_spec r 0) as [Z1|Z1]; [|destruct (Z.ltb_spec 0 r) as [Z2|Z2]].
    - cbn [goal_of]. split; [exact Sc2|]. split; [eauto|]. split; [auto|discriminate].
    - destruct (_ && _)%bool; [eapply Ag; eauto|]. cbn [goal_of]. split; [exact Sc2|]. split; [eauto|]. split; [auto|discriminate].
    - cbn [goal_of]. split; [exact Sc2|]. split; [eauto|]. split; [exact Ni|]. intros _. destruct (Q ltac:(lia)) as (gpo & f & g & G1 & G2 & G3 & G4 & G5).
      exists a, b, gpo, f, g. split; [eapply nth_error_In; exact Na|]. split; [exact Ev|]. split; [apply Ub|]. rewrite <- Ev. auto. }
  destruct required.
  - destruct (menu_ok apps U 1) as (m & Em). rewrite Em. cbn [bind]. destruct (ask i (Zlen apps)) as [o i']. cbn [bind]. refine (First [_] o i' _). intros [Q|[]]. exact (icc_select _ Q).
  - cbn [bind]. refine (First [_] (Some O) i _). intros [Q|[]]. exact (icc_first Q).
Qed.

(** ** The session *)
Lemma first_with_wf tag l f : Forall wf_field l -> first_with tag l f -> wf_field f.
Proof. intros Wl F. rewrite Forall_forall in Wl. apply Wl. eapply first_with_in. exact F. Qed.
Lemma icc_wf apps c : in_use apps c -> Forall wf_field (k_icc c).
Proof. intros (a & b & gpo & f & g & _ & _ & (Ft & _) & -> & Wg & _). apply Forall_app. auto. Qed.
Lemma read_safe fuel s c : Forall wf_field (k_icc c) -> read_application_data x fuel s c = UB -> blank.
Proof.
  intros Wi E. unfold read_application_data in E. destruct (find_tag 0x94 (k_icc c)) as [afl|] eqn:Ef; [|discriminate].
  apply find_tag_spec in Ef. pose proof (first_with_wf _ _ _ Wi Ef) as Wf. rewrite (wf_sub afl Wf) in E. cbn [bind] in E.
  destruct (read_afl_records x fuel s (f_val afl) []) as [[[r rec] s1]| |] eqn:Er; cbn [bind] in E.
  - repeat match type of E with (if ?b then _ else _) = _ => destruct b end; discriminate.
  - right. eapply read_afl_ub; [exact W|apply Wf|exact Er].
  - discriminate.
Qed.
Theorem session_spec fuel rounds s t o i : calendar t -> is_byte (o_type o) -> 0 <= o_amount o < 4294967296 -> 0 <= o_other o < 4294967296 ->
  match session x junk buf fuel rounds s t o i with
  | UB => blank | NoFuel => True
  | Ret (ev, c, s') => exists params, load_params (firstn 6 buf) t 42 (o_type o) (o_amount o) (o_other o) = Ret params /\ k_params c = params /\ k_config c = tool_config /\ k_aids c = tool_aids /\
    (In icc_line ev -> exists pre apps s1 c1 s2 fs, ev = pre ++ [icc_line; Fields (k_icc c); Say (newline ++ lit "Terminal data" ++ newline); Fields (k_term c)] /\
      build_candidate_list x junk fuel s (mkCtx true tool_config tool_aids params None [] []) [] = Ret (0, apps, s1) /\ in_use apps c1 /\
      read_application_data x fuel s2 c1 = Ret (0, c, s') /\ k_icc c = k_icc c1 ++ fs /\ k_term c = k_term c1 /\ incl mandatory (map f_tag fs) /\ no_duplicates fs /\
      exists ev2 apps2 i2, select_loop x junk buf rounds s1 (mkCtx true tool_config tool_aids params None [] []) apps (selection_required apps) i = Ret (true, ev2, apps2, c1, s2, i2))
  end.
Proof.
  intros Ct Bt A O. unfold session.
  destruct (params_ok (firstn 6 buf) t 42 (o_type o) (o_amount o) (o_other o)) as (params & Ep & Fp); [rewrite firstn_length; lia|exact Ct|lia|exact Bt|exact A|exact O|].
  rewrite Ep. cbn [bind]. set (c := mkCtx true tool_config tool_aids params None [] []).
  set (ev0 := [Say (newline ++ lit "Terminal config:" ++ newline); Fields tool_config; Say (newline ++ lit "Supported AIDs:" ++ newline); Fields tool_aids;
             Say (newline ++ lit "Transaction parameters:" ++ newline); Fields params; Say (newline ++ lit "Build candidate list" ++ newline)]).
  assert (N0 : ~ In icc_line ev0).
  { unfold icc_line. intros [E|[E|[E|[E|[E|[E|[E|[]]]]]]]]; try discriminate E; revert E; said. }
  clearbody ev0. pose proof (build_usable fuel s c aids_wf) as K. destruct (build_candidate_list x junk fuel s c []) as [[[r apps] s1]| |] eqn:Eb; cbn [bind]; [|exact K|exact I].
  assert (Nrep : forall l r, ~ In icc_line l -> ~ In icc_line (l ++ [report r])).
  { intros l r0 Nl Q. apply in_app_or in Q. destruct Q as [Q|[Q|[]]]; [exact (Nl Q)|exact (icc_report r0 Q)]. }
  destruct (Z.eqb_spec r 0) as [R0|R0]; cbn [negb].
  2:{ exists params. split; [reflexivity|]. split; [reflexivity|]. split; [reflexivity|]. split; [reflexivity|]. intros Q. destruct (Nrep _ _ N0 Q). }
  destruct (print_apps_ok apps K) as (shown & Es). rewrite Es. cbn [bind].
  set (ev1 := ev0 ++ [line "Candidate applications:"] ++ shown ++ (if selection_required apps then [line "Cardholder selection is required"] else [])).
  assert (N1 : ~ In icc_line ev1).
  { unfold ev1. intros Q. apply in_app_or in Q. destruct Q as [Q|Q]; [exact (N0 Q)|]. cbn [app] in Q. destruct Q as [Q|Q]; [revert Q; unfold line, icc_line; said|]. apply in_app_or in Q.
    destruct Q as [Q|Q]; [exact (icc_apps _ _ Es Q)|]. destruct (selection_required apps); [|destruct Q]. destruct Q as [Q|[]]. revert Q. unfold line, icc_line. said. }
  clearbody ev1. pose proof (loop_safe rounds s1 c apps (selection_required apps) i K Fp config_ok) as L.
  destruct (select_loop x junk buf rounds s1 c apps (selection_required apps) i) as [[[[[[ok ev2] apps2] c1] s2] i2]| |] eqn:El; cbn [bind]; [|exact L|exact I].
  destruct L as ((C1 & C2 & C3 & C4) & _ & N2 & L).
  assert (N3 : ~ In icc_line (ev1 ++ ev2)) by (intros Q; apply in_app_or in Q; tauto).
  destruct ok; cbn [negb].
  2:{ exists params. split; [reflexivity|]. split; [exact C4|]. split; [exact C2|]. split; [exact C3|]. intros Q. destruct (N3 Q). }
  specialize (L eq_refl). pose proof (icc_wf _ _ L) as Wi. pose proof (read_safe fuel s2 c1 Wi) as Rs.
  destruct (read_application_data x fuel s2 c1) as [[[r2 c2] s3]| |] eqn:Er; cbn [bind]; [|exact (Rs eq_refl)|exact I].
  pose proof (read_data_spec x junk Lj fuel s2 c1 r2 c2 s3 Wi Er) as D.
  assert (N4 : ~ In icc_line ((ev1 ++ ev2) ++ [Say (newline ++ lit "Read application data" ++ newline)])).
  { intros Q. apply in_app_or in Q. destruct Q as [Q|[Q|[]]]; [exact (N3 Q)|revert Q; unfold icc_line; said]. }
  destruct (Z.eqb_spec r2 0) as [R2|R2]; cbn [negb].
  2:{ destruct D as [(_ & -> & _)|(D & _)]; [|contradiction]. exists params. split; [reflexivity|]. split; [exact C4|]. split; [exact C2|]. split; [exact C3|]. intros Q. destruct (Nrep _ _ N4 Q). }
  destruct D as [(D & _)|(_ & afl & tr & fs & _ & _ & _ & Nd & Im & Ec)]; [contradiction|]. subst r r2.
  exists params. split; [reflexivity|]. rewrite Ec. cbn [k_params k_config k_aids k_icc k_term]. split; [exact C4|]. split; [exact C2|]. split; [exact C3|]. intros _.
  exists ((ev1 ++ ev2) ++ [Say (newline ++ lit "Read application data" ++ newline)]), apps, s1, c1, s2, fs. split; [reflexivity|]. split; [exact Eb|].
  split; [exact L|]. split; [rewrite <- Ec; exact Er|]. split; [reflexivity|]. split; [reflexivity|]. split; [exact Im|]. split; [exact Nd|]. exists ev2, apps2, i2. exact El.
Qed.
End Safe.

(** ** The commands sent *)
Definition session_cmd (params : list field) (apps : list emvapp) (c : list Z) : Prop :=
  candidate_cmd (map f_val tool_aids) c \/ (exists a, In a apps /\ c = select_cmd 0 (f_val (a_aid a))) \/
  exists a fields d, In a apps /\ gpo_command_data [params; tool_config; terminal_data 0x05 (f_val (a_aid a))] fields d /\
    let d := match d with Some d => d | None => [0x83; 0x00] end in c = [0x80; 0xA8; 0x00; 0x00; Zlen d] ++ d ++ [0x00].
Section SessionWire.
Context {S : Type} (tfuel : nat) (card : cardfn S) (tjunk junk buf : list Z) (Rb : respects_buffer card) (Hb : forall s tx, bytes (snd (snd (card s tx)))) (Bj : bytes tjunk)
  (Lj : length junk = 17%nat) (Lb : length buf = 255%nat).
Notation tr := (ttl_transport tfuel (logged card) ModeApdu tjunk).
Lemma tr_wf : wf_transport tr.
Proof. apply ttl_transport_wf; auto using logged_respects, logged_bytes. Qed.
Lemma wire_weaken (C D : list Z -> Prop) l l' : (forall c, C c -> D c) -> wire C l l' -> wire D l l'.
Proof. intros H (g & E & G). exists g. split; [exact E|]. clear E. induction G; constructor; auto. Qed.
Lemma loop_wire fuel : forall s log c apps required i ok ev apps' c' s' log' i', Forall usable apps -> fields_ok (k_params c) -> k_config c = tool_config ->
  select_loop tr junk buf fuel (s, log) c apps required i = Ret (ok, ev, apps', c', (s', log'), i') -> wire (session_cmd (k_params c) apps) log log'.
Proof.
  induction fuel as [|fuel IH]; intros s log c apps required i ok ev apps' c' s' log' i' U Fp Fc E; [discriminate|]. cbn [select_loop] in E.
  apply bind_Ret_inv in E as ([[first choice] i1] & _ & E).
  assert (Ag : forall ev0 s1 log1 c1 apps1 i1, same_setup c c1 -> (forall a, In a apps1 -> In a apps) -> wire (session_cmd (k_params c) apps) log log1 ->
    (let* (b, ev', apps, c, s, i) := select_loop tr junk buf fuel (s1, log1) c1 apps1 required i1 in Ret (b, ev0 ++ ev', apps, c, s, i)) = Ret (ok, ev, apps', c', (s', log'), i') ->
    wire (session_cmd (k_params c) apps) log log').
  { intros ev0 s1 log1 c1 apps1 i2 (_ & S2 & _ & S4) Sub Wl Q. apply bind_Ret_inv in Q as ([[[[[ok2 ev2] apps2] c2] [s2 log2]] i3] & Q & R).
    apply inv_ret in R. injection R as -> <- -> -> -> -> ->. eapply wire_trans; [exact Wl|].
    eapply wire_weaken; [|eapply IH; [|rewrite S4; exact Fp|congruence|exact Q]].
    - rewrite S4. intros cm [K|[(a & Ia & K)|(a & fields & d & Ia & K)]]; [left; exact K|right; left; eauto|right; right; eauto 10].
    - rewrite Forall_forall in *. auto. }
  destruct choice as [index|]; [|eapply Ag in E; [exact E|repeat split|auto|apply wire_refl]].
  apply bind_Ret_inv in E as ([[[r apps1] c1] [s1 log1]] & Es & E).
  assert (Fc' : fields_ok (k_config c)) by (rewrite Fc; apply config_ok).
  pose proof (step tr tr_wf junk Lj buf Lb apps (s, log) c index U Fp Fc') as K. rewrite Es in K. destruct K as (Sc & _ & K1 & K2 & _).
  assert (W1 : wire (session_cmd (k_params c) apps) log log1).
  { apply (select_wire tfuel card tjunk) in Es; [|eapply Forall_impl; [|exact U]; intros a Ua; apply Ua].
    destruct Es as [->|(a & more & Na & -> & Fm)]; [apply wire_refl|]. apply wire_one; [|exact Fm]. right. left. exists a. split; [eapply nth_error_In; exact Na|reflexivity]. }
  assert (Sub : forall a, In a apps1 -> In a apps).
  { intros a Ia. destruct (Nat.ltb_spec index (length apps)) as [L|L]; [|rewrite <- (proj2 (K2 L)); exact Ia]. destruct (K1 L) as (b & _ & P & _).
    eapply Permutation_in; [symmetry; exact P|]. right. exact Ia. }
  destruct (Z.ltb_spec r 0) as [R|R]; [apply inv_ret in E; injection E as <- <- <- <- <- <- <-; exact W1|].
  destruct (Z.ltb_spec 0 r) as [R'|R'].
  { destruct (r =? TRY_AGAIN); [eapply Ag; eauto|]. apply inv_ret in E; injection E as <- <- <- <- <- <- <-; exact W1. }
  assert (r = 0) by lia. subst r. destruct (Nat.ltb_spec index (length apps)) as [L|L]; [|destruct (K2 L); lia].
  destruct (K1 L) as (a & Na & _ & Kb). destruct (Kb eq_refl) as (b & Ek & Ub & Ev). rewrite Ek in E. cbv zeta in E. pose proof Sc as (S1 & S2 & S3 & S4).
  apply bind_Ret_inv in E as ([[r c2] [s2 log2]] & Ei & E).
  pose proof (start tr tr_wf junk Lj buf Lb (s1, log1) c1 b 5 ltac:(unfold is_byte; lia) ltac:(rewrite S4; exact Fp) ltac:(rewrite S2; exact Fc') Ek Ub) as Q. rewrite Ei in Q.
  destruct Q as ((Q1 & Q2 & Q3 & Q4) & _). assert (Sc2 : same_setup c c2) by (repeat split; congruence).
  assert (W2 : wire (session_cmd (k_params c) apps) log log2).
  { eapply wire_trans; [exact W1|]. apply (initiate_wire tfuel card tjunk) with (a := b) in Ei; auto; try (unfold is_byte; lia); try (rewrite S4; exact Fp); try (rewrite S2; exact Fc'); try apply Ub.
    destruct Ei as [(-> & _)|(d & more & Gd & Q)]; [apply wire_refl|]. cbv zeta in Q. destruct Q as (-> & Fm). apply wire_one; [|exact Fm].
    right. right. exists a, (a_tlvs b), d. split; [eapply nth_error_In; exact Na|]. rewrite S4, S2, Fc, Ev in Gd. split; [exact Gd|reflexivity]. }
  destruct (Z.ltb_spec r 0) as [Z1|Z1]; [apply inv_ret in E; injection E as <- <- <- <- <- <- <-; exact W2|].
  destruct (Z.ltb_spec 0 r) as [Z2|Z2].
  - destruct (_ && _)%bool; [eapply Ag; eauto|]. apply inv_ret in E; injection E as <- <- <- <- <- <- <-; exact W2.
  - apply inv_ret in E; injection E as <- <- <- <- <- <- <-; exact W2.
Qed.
Theorem session_wire fuel rounds s log t o i ev c s' log' : calendar t -> is_byte (o_type o) -> 0 <= o_amount o < 4294967296 -> 0 <= o_other o < 4294967296 ->
  session tr junk buf fuel rounds (s, log) t o i = Ret (ev, c, (s', log')) ->
  exists params apps, load_params (firstn 6 buf) t 42 (o_type o) (o_amount o) (o_other o) = Ret params /\
    (exists r s1, build_candidate_list tr junk fuel (s, log) (mkCtx true tool_config tool_aids params None [] []) [] = Ret (r, apps, s1)) /\
    wire (session_cmd params apps) log log'.
Proof.
  intros Ct Bt A O E. unfold session in E.
  destruct (params_ok (firstn 6 buf) t 42 (o_type o) (o_amount o) (o_other o)) as (params & Ep & Fp); [rewrite firstn_length; lia|exact Ct|lia|exact Bt|exact A|exact O|].
  rewrite Ep in E. cbn [bind] in E. apply bind_Ret_inv in E as ([[r apps] [s1 log1]] & Eb & E). exists params, apps. split; [exact Ep|]. split; [eauto|].
  set (c0 := mkCtx true tool_config tool_aids params None [] []) in *.
  pose proof (build_usable tr tr_wf junk Lj fuel (s, log) c0 aids_wf) as U. rewrite Eb in U.
  assert (W1 : wire (session_cmd params apps) log log1).
  { apply (build_wire tfuel card tjunk) in Eb; [|exact aids_wf]. eapply wire_weaken; [|exact Eb]. intros cm K. left. exact K. }
  destruct (negb (r =? 0)); [apply inv_ret in E; injection E as <- <- <- <-; exact W1|].
  apply bind_Ret_inv in E as (shown & _ & E). apply bind_Ret_inv in E as ([[[[[ok ev2] apps2] c1] [s2 log2]] i2] & El & E).
  assert (W2 : wire (session_cmd params apps) log log2).
  { eapply wire_trans; [exact W1|]. apply loop_wire in El; [exact El|exact U|exact Fp|reflexivity]. }
  pose proof (loop_safe tr tr_wf junk Lj buf Lb rounds (s1, log1) c0 apps (selection_required apps) i U Fp config_ok) as L. rewrite El in L. destruct L as (_ & _ & _ & L).
  destruct ok; cbn [negb] in E; [|apply inv_ret in E; injection E as <- <- <- <-; exact W2].
  apply bind_Ret_inv in E as ([[r2 c2] [s3 log3]] & Er & E).
  assert (W3 : wire (session_cmd params apps) log log3).
  { eapply wire_trans; [exact W2|]. apply (read_data_wire tfuel card tjunk) in Er; [|exact (icc_wf _ _ (L eq_refl))]. eapply wire_weaken; [|exact Er]. intros cm K. left. left. exact K. }
  destruct (negb (r2 =? 0)); apply inv_ret in E; injection E as <- <- <- <-; exact W3.
Qed.
End SessionWire.

(** ** How many rounds *)
Section Rounds.
Context {T : Type} (x : transport T) (W : wf_transport x) (junk buf : list Z) (Lj : length junk = 17%nat) (Lb : length buf = 255%nat).
(** Without input the loop has no end. *)
Lemma eof_loop fuel : forall s c apps, Forall usable apps -> select_loop x junk buf fuel s c apps true [] = NoFuel.
Proof.
  induction fuel as [|fuel IH]; intros s c apps U; [reflexivity|]. cbn [select_loop]. destruct (menu_ok apps U 1) as (m & ->). cbn [bind ask]. rewrite (IH s c apps U). reflexivity.
Qed.
Definition answers : Prop := (forall s name, x_select x s name <> NoFuel) /\ (forall s d, x_gpo x s d <> NoFuel).
Fixpoint ones (n : nat) : list Z := match n with O => [] | S n => 49 :: 10 :: ones n end.
Lemma ask_one i count : 1 <= count -> ask (49 :: 10 :: i) count = (Some O, i).
Proof. intros C. unfold ask. cbn. destruct (Z.ltb_spec count 1); [lia|]. reflexivity. Qed.
Lemma no_fuel_loop (b : out (bool * list event * list emvapp * ctx * T * list Z)) ev :
  b <> NoFuel -> (let* (b, ev', apps, c, s, i) := b in Ret (b, ev ++ ev', apps, c, s, i)) <> NoFuel.
Proof. destruct b as [[[[[[? ?] ?] ?] ?] ?]| |]; cbn [bind]; congruence. Qed.
Lemma loop_ends n : forall s c apps required i, answers -> Forall usable apps -> fields_ok (k_params c) -> fields_ok (k_config c) -> apps <> [] -> (length apps <= n)%nat ->
  (required = true -> exists r, i = ones n ++ r) -> select_loop x junk buf n s c apps required i <> NoFuel.
Proof.
  induction n as [|n IH]; intros s c apps required i An U Fp Fc Ne L In1; [destruct apps; [congruence|cbn in L; lia]|]. cbn [select_loop].
  set (again := fun (ev : list event) s c apps i => let* (b, ev', apps, c, s, i) := select_loop x junk buf n s c apps required i in Ret (b, ev ++ ev', apps, c, s, i)).
  assert (First : exists first i1, (if required then let* m := menu 1 apps in let '(o, i) := ask i (Zlen apps) in
        Ret ([Say (newline ++ lit "Select application:" ++ newline ++ m ++ lit "Enter number: ")], o, i)
      else Ret ([Say (newline ++ lit "Select first application:" ++ newline)], Some O, i)) = Ret (first, Some O, i1) /\ (required = true -> exists r, i1 = ones n ++ r)).
  { destruct required; [|exists [Say (newline ++ lit "Select first application:" ++ newline)], i; split; [reflexivity|discriminate]].
    destruct (In1 eq_refl) as (r & ->). cbn [ones app]. destruct (menu_ok apps U 1) as (m & ->). cbn [bind]. rewrite ask_one by (destruct apps; [congruence|unfold Zlen; cbn [length]; lia]).
    do 2 eexists. split; [reflexivity|]. eauto. }
  destruct First as (first & i1 & -> & In2). cbn [bind].
  assert (Ag : forall ev s1 c1 apps1, Forall usable apps1 -> same_setup c c1 -> apps1 <> [] -> (length apps1 < length apps)%nat -> again ev s1 c1 apps1 i1 <> NoFuel).
  { intros ev s1 c1 apps1 U1 (_ & S2 & _ & S4) N1 L1. unfold again. apply no_fuel_loop. apply IH; auto; try lia; [rewrite S4; exact Fp|rewrite S2; exact Fc]. }
  assert (L0 : (0 < length apps)%nat) by (destruct apps; [congruence|cbn; lia]).
  pose proof (step x W junk Lj buf Lb apps s c 0%nat U Fp Fc) as K.
  destruct (select_application x junk s c apps 0) as [[[[r apps1] c1] s1]| |] eqn:Es; cbn [bind]; [|discriminate|].
  2:{ exfalso. destruct apps as [|a apps]; [congruence|]. inversion U as [|? ? Ua _]; subst.
      pose proof (select_application_spec x W junk Lj s c [] a apps (proj1 Ua)) as Q. cbn [app length] in Q. rewrite Es in Q. exact (proj1 An _ _ Q). }
  destruct K as (Sc & U1 & K1 & _ & K3). destruct (K1 L0) as (a & _ & P & Kb). apply Permutation_length in P. cbn [length] in P.
  destruct (r <? 0); [discriminate|]. destruct (Z.ltb_spec 0 r) as [R|R].
  { destruct (Z.eqb_spec r TRY_AGAIN) as [Q|Q]; [|discriminate]. apply Ag; auto; [apply (K3 Q)|lia]. }
  destruct (k_app c1) as [[b st]|] eqn:Ek; [|discriminate]. cbv zeta. destruct (Z.eq_dec r 0) as [->|R0].
  2:{ exfalso. destruct apps as [|a0 apps]; [congruence|]. inversion U as [|? ? Ua _]; subst.
      pose proof (select_application_spec x W junk Lj s c [] a0 apps (proj1 Ua)) as Q. cbn [app length] in Q. rewrite Es in Q. destruct Q as (_ & _ & Q).
      destruct Q as [(_ & _ & Q & _)|(_ & tr & sel & _ & [(_ & Q & _)|[(_ & _ & Q)|[(_ & _ & _ & Q)|(_ & _ & Q)]]])]; congruence. }
  destruct (Kb eq_refl) as (b' & Ek' & Ub & _). injection Ek' as -> ->. pose proof Sc as (S1 & S2 & S3 & S4).
  pose proof (initiate_spec x W junk Lj buf s1 c1 5 b' Lb ltac:(unfold is_byte; lia) Ek ltac:(apply Ub) ltac:(apply Ub) ltac:(rewrite S4; exact Fp) ltac:(rewrite S2; exact Fc)) as Q. cbv zeta in Q.
  destruct (initiate x buf s1 c1 5) as [[[r c2] s2]| |]; cbn [bind]; [|discriminate|destruct Q as (d & Q); exfalso; exact (proj2 An _ _ Q)].
  destruct Q as (Ec & _). injection Ec as Q1 Q2 Q3 Q4 Q5.
  destruct (r <? 0); [discriminate|]. destruct (0 <? r); [|discriminate]. destruct ((r =? GPO_NOT_ACCEPTED) && _)%bool eqn:Eg; [|discriminate].
  apply andb_prop in Eg. destruct Eg as [_ Eg]. apply Ag; [exact U1|repeat split; congruence|destruct apps1; [discriminate|discriminate]|lia].
Qed.
End Rounds.
