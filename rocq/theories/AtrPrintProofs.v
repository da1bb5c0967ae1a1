(** Proofs about what is printed for an answer to reset. *)
From Coq Require Import String.
From Verif Require Import Base BaseLemmas BerSpec DolModel DolSpec DolProofs TlvSpec StrModel StrSpec CapduModel CapduSpec CapduProofs FlagsModel FlagsSpec FlagsProofs FlagsTexts
  CardModel CardSpec CardProofs CardProps AtrModel AtrSpec AtrProofs AtrTextModel AtrTextSpec AtrTextProofs AtrTextTexts AtrTextProps StatusSpec StatusProps PrintModel PrintSpec PrintProofs AtrPrintSpec.
Open Scope string_scope.
Open Scope Z_scope.
Open Scope list_scope.
Notation length := List.length.

(** ** Objects *)
Definition plainb (t : list Z) : bool := some_text t && forallb (fun c => negb (c =? 10) && negb (c =? 0)) t.
Definition plain (t : list Z) : Prop := t <> [] /\ ~ In 10 t /\ nz t.
Lemma plain_ok t : plainb t = true -> plain t.
Proof.
  unfold plainb. intros H. apply andb_prop in H as (H1 & H2). rewrite forallb_forall in H2. split; [intros ->; discriminate|]. split.
  - intros I. specialize (H2 _ I). discriminate.
  - apply Forall_forall. intros c I. specialize (H2 _ I). lia.
Qed.
Lemma plains_ok ts : forallb plainb ts = true -> Forall plain ts.
Proof. intros H. apply Forall_forall. intros t I. rewrite forallb_forall in H. apply plain_ok, H, I. Qed.
Lemma plain_lines ts : Forall plain ts -> Forall (fun t => ~ In 10 t) ts /\ filter some_text ts = ts /\ nz (lines ts).
Proof.
  induction 1 as [|t ts (P1 & P2 & P3) F (IH1 & IH2 & IH3)]; [repeat split; constructor|]. split; [constructor; auto|]. split.
  - cbn [filter]. destruct t; [contradiction|]. cbn [some_text]. rewrite IH2. reflexivity.
  - unfold lines. cbn [flat_map]. apply nz_app; [apply nz_app; [exact P3|repeat constructor; lia]|exact IH3].
Qed.
Lemma service_plain b : is_byte b -> Forall plain (table_texts T_service [b]).
Proof. intros H. apply plains_ok. revert b H. apply byte_sweep. vm_compute. reflexivity. Qed.
Lemma caps_plain v : bytes v -> Forall plain (caps_texts v).
Proof.
  intros B. unfold caps_texts.
  assert (H1 : Forall plain (table_texts T_selection v)).
  { rewrite (table_one T_selection v 1 eq_refl [octet v 1]) by reflexivity. pose proof (octet_byte v 1 B) as H. revert H. generalize (octet v 1). intros b H. apply plains_ok. revert b H. apply byte_sweep. vm_compute. reflexivity. }
  assert (H2 : Forall plain (table_texts T_coding v)).
  { rewrite (table_one T_coding v 2 eq_refl [0; octet v 2]) by reflexivity. pose proof (octet_byte v 2 B) as H. revert H. generalize (octet v 2). intros b H. apply plains_ok. revert b H. apply byte_sweep. vm_compute. reflexivity. }
  assert (H3 : Forall plain (table_texts T_channels v)).
  { rewrite (table_one T_channels v 3 eq_refl [0; 0; octet v 3]) by reflexivity. pose proof (octet_byte v 3 B) as H. revert H. generalize (octet v 3). intros b H. apply plains_ok. revert b H. apply byte_sweep. vm_compute. reflexivity. }
  apply Forall_app. split; [exact H1|]. apply Forall_app. split; [destruct (2 <=? length v)%nat; [exact H2|constructor]|destruct (3 <=? length v)%nat; [exact H3|constructor]].
Qed.
Lemma caps_some v : bytes v -> v <> [] -> v <> [0] -> caps_texts v <> [].
Proof.
  intros B N0 N1 E. unfold caps_texts in E. apply app_eq_nil in E as (E1 & E2). destruct v as [|a [|b v]]; [contradiction| |].
  - assert (A : is_byte a) by (inversion B; assumption). assert (Na : a <> 0) by congruence. clear E2 N0 N1 B.
    assert (G : ((a =? 0) || negb (match table_texts T_selection [a] with [] => true | _ => false end)) = true) by (clear E1 Na; revert a A; apply byte_sweep; vm_compute; reflexivity). rewrite E1 in G. destruct (Z.eqb_spec a 0); [contradiction|discriminate].
  - cbn [length Nat.leb] in E2. apply app_eq_nil in E2 as (E2 & _). rewrite (table_one T_coding _ 2 eq_refl [0; b]) in E2 by reflexivity. assert (A : is_byte b) by (inversion B as [|? ? ? B']; inversion B'; assumption).
    assert (G : negb (match table_texts T_coding [0; b] with [] => true | _ => false end) = true) by (clear E1 E2 N0 N1 B; revert b A; apply byte_sweep; vm_compute; reflexivity). rewrite E2 in G. discriminate.
Qed.
Lemma listed_print str new ts : text_in str new (lines ts) -> Forall plain ts -> exists s, p_s new = Ret s /\ print_str_list s (lit "  ") 2 = flat_map (fun t => line_at (lit "  ") 2 (lit "- " ++ t)) ts.
Proof.
  intros (L & ->) P. destruct (plain_lines ts P) as (P1 & P2 & P3). exists (lines ts). split; [apply p_s_cstring, cstring_app; exact P3|]. rewrite print_lines by exact P1. rewrite P2. reflexivity.
Qed.
Lemma named k : 0 <= k < 16 -> exists n, object_name k n /\ ctlv_tag_string k = lit n.
Proof.
  intros R. destruct (find (fun e => fst e =? 0x40 + k) ctlv_names) as [[t u]|] eqn:F.
  - apply find_some in F as (I & E). cbn in E. apply Z.eqb_eq in E. subst t. exists u. assert (O : object_name k u) by (left; exact I). split; [exact O|apply C119_names; [exact R|exact O]].
  - exists "Unknown". assert (O : object_name k "Unknown") by (right; split; [reflexivity|]; intros t I; eapply find_none in F; [|exact I]; cbn in F; lia). split; [exact O|apply C119_names; [exact R|exact O]].
Qed.
Lemma tag_digit k : 0 <= k < 16 -> p_X k = hex1 k.
Proof.
  intros R. assert (G : forallb (fun n => ll_eqb [p_X (Z.of_nat n)] [hex1 (Z.of_nat n)]) (seq 0 16) = true) by (vm_compute; reflexivity). rewrite forallb_forall in G. specialize (G (Z.to_nat k) ltac:(apply in_seq; lia)). cbn beta in G.
  rewrite Z2Nat.id in G by lia. apply ll_eqb_eq in G. congruence.
Qed.
Lemma object_print o rest str : ctlv_ok o -> describable o -> (540 < length str)%nat ->
  exists t, object_lines (mkCtlv (fst o) (Zlen (snd o)) (snd o)) (snd o ++ rest) str = Ret t /\ object_text o t.
Proof.
  destruct o as [tag v]. intros (Ht & Hl & Bv) (D3 & D7) Ls. cbn [fst snd] in *. destruct (named tag Ht) as (n & On & En).
  unfold object_lines. cbn [c_tag c_len c_val]. rewrite En, tag_digit by exact Ht. pose proof (Zlen_nonneg v). rewrite p_dec_text by lia.
  set (head := lit "  " ++ lit n ++ _). assert (Eh : head = lit "  " ++ lit n ++ lit " (0x" ++ hex1 tag ++ lit "): " ++ bracketed (Zlen v) ++ lit " " ++ joined v ++ nl).
  { unfold head, bracketed, joined, newline, nl. change (lit "): [") with (lit "): " ++ [91]). change (lit "] ") with ([93] ++ lit " "). rewrite <- !app_assoc. do 9 f_equal. destruct v as [|b v]; [reflexivity|]. inversion Bv; subst. rewrite spaced_ok, hex2_02X by assumption. rewrite <- app_assoc. reflexivity. }
  assert (Fin : forall ts, ts = object_lists (tag, v) -> object_text (tag, v) (head ++ flat_map (fun t => line_at (lit "  ") 2 (lit "- " ++ t)) ts)).
  { intros ts ->. exists n. split; [exact On|]. rewrite Eh. cbn [fst snd]. rewrite <- !app_assoc. reflexivity. }
  clearbody head. unfold object_lists in Fin. cbn [fst snd] in Fin. destruct (Z.eqb_spec tag 3) as [->|N3].
  - destruct v as [|b v]; [elim D3; reflexivity|]. change (rd ((b :: v) ++ rest) 0) with (Ret b). cbn [bind]. assert (Bb : is_byte b) by (inversion Bv; assumption).
    destruct (C118_service_data b str Bb) as (new & -> & _ & _ & T). specialize (T ltac:(lia)). cbn [bind]. destruct (listed_print _ _ _ T (service_plain b Bb)) as (s & -> & P).
    cbn [bind]. eexists. split; [reflexivity|]. rewrite P. apply Fin. reflexivity.
  - destruct (Z.eqb_spec tag 7) as [->|N7].
    + cbn [andb] in Fin. destruct v as [|b v]; [rewrite C118_no_capabilities; cbn [bind]; exists head; split; [reflexivity|]; rewrite <- (app_nil_r head); apply (Fin []); vm_compute; reflexivity|].
      destruct (C118_capabilities (b :: v) str Bv ltac:(discriminate)) as (C1 & C2).
      destruct ((3 <=? length (b :: v))%nat && (range (octet (b :: v) 3) 5 4 =? 3)) eqn:R; cbn [negb] in Fin.
      * destruct (C2 ltac:(lia) ltac:(lia)) as (new & -> & _). cbn [bind]. exists head. split; [reflexivity|]. rewrite <- (app_nil_r head). apply (Fin []). reflexivity.
      * destruct C1 as (new & -> & _ & _ & T); [lia|]. specialize (T Ls (caps_some _ Bv ltac:(discriminate) ltac:(congruence))). cbn [bind]. destruct (listed_print _ _ _ T (caps_plain _ Bv)) as (s & -> & P).
        cbn [bind]. eexists. split; [reflexivity|]. rewrite P. apply Fin. reflexivity.
    + cbn [andb bind] in Fin |- *. exists head. split; [reflexivity|]. rewrite <- (app_nil_r head). apply (Fin []). reflexivity.
Qed.
Lemma objects_print objs : Forall ctlv_ok objs -> Forall describable objs -> forall fuel beyond str, (540 < length str)%nat -> (length (objects_enc objs) < fuel)%nat ->
  exists t, object_loop fuel (objects_enc objs) beyond str = Ret t /\ objects_text objs t.
Proof.
  induction 1 as [|o objs Ho H IH]; intros D fuel beyond str Ls Lf; (destruct fuel as [|fuel]; [lia|]); cbn [object_loop].
  - exists []. split; [reflexivity|]. exists []. split; [constructor|reflexivity].
  - inversion D as [|? ? D1 D2]; subst. unfold objects_enc in *. cbn [flat_map] in *. rewrite app_length in Lf. destruct o as [tag v]. cbn [fst snd] in *. rewrite ctlv_next_complete by exact Ho. cbn [bind].
    pose proof (Zlen_nonneg v). destruct (Z.leb_spec (Zlen v + 1) 0); [lia|]. cbn [c_val].
    destruct (object_print (tag, v) (flat_map (fun o => ctlv_enc (fst o) (snd o)) objs ++ beyond) str Ho D1 Ls) as (t & Et & Ot). cbn [fst snd] in Et. rewrite Et. cbn [bind].
    destruct (IH D2 fuel beyond str Ls) as (t' & -> & (ts & F2 & ->)); [assert (1 <= length (ctlv_enc tag v))%nat by (unfold ctlv_enc; cbn [length]; lia); lia|]. cbn [bind]. eexists. split; [reflexivity|]. exists (t :: ts). split; [constructor; auto|reflexivity].
Qed.

(** ** What the parser keeps *)
Lemma finish_more atr buf TS T0 idx tck p ps x : finish atr buf TS T0 idx tck p ps = Ret (inr x) ->
  i_len x = length atr /\ i_T0 x = T0 /\ status_fields (i_status x) = (i_LCS x, i_SW1 x, i_SW2 x) /\
  exists next, parse_hist buf idx (Z.land T0 15) = gives (i_T1 x, i_hist x, i_status x, next) /\ (if tck then rd buf next = Ret (i_TCK x) else i_TCK x = 0).
Proof.
  unfold finish. intros E. destruct (compute_gt p) as (gt, cgt). destruct (compute_wt p) as ((wt, cwt), bwt).
  destruct (Nat.ltb_spec (length atr) idx); [discriminate|]. destruct (Nat.ltb_spec (length atr) (idx + Z.to_nat (Z.land T0 15))); [discriminate|].
  apply ebind_gives in E as ((((t1, h), st), next) & E1 & E). destruct (length atr <? next)%nat; [discriminate|].
  apply ebind_gives in E as (TCK & Et & E). destruct (status_fields st) as ((lcs, sw1), sw2) eqn:Es. apply gives_inj in E. subst x. cbn. repeat (split; [auto|]). exists next. split; [exact E1|].
  destruct tck; [|apply gives_inj in Et; auto]. destruct (length atr <=? next)%nat; [discriminate|]. destruct (rd buf next) as [c| |]; try discriminate. cbn [bind] in Et. destruct (sub buf 1 next); try discriminate. cbn [bind] in Et.
  destruct (fold_left Z.lxor a 0 =? 0); [|discriminate]. apply gives_inj in Et. congruence.
Qed.
(** The octets after the category indicator that the parser keeps. *)
Lemma kept_hist pre hist rest K t1 h st next : Zlen hist = K -> parse_hist (pre ++ hist ++ rest) (length pre) K = gives (t1, h, st, next) ->
  match hist with
  | [] => h = None
  | b :: l => h = Some (if b =? 0 then firstn (length l - 3) l else l)
  end.
Proof.
  intros EK. unfold parse_hist. destruct (Z.eqb_spec K 0) as [E0|N0].
  - destruct hist; [|unfold Zlen in EK; cbn [length] in EK; lia]. intros E. apply gives_inj in E. congruence.
  - destruct hist as [|b l]; [unfold Zlen in EK; cbn in EK; lia|]. cbn [app]. rewrite rd_app_mid by reflexivity. cbn [bind].
    assert (El : (Z.to_nat K - 1)%nat = length l) by (unfold Zlen in EK; cbn [length] in EK; lia). rewrite El.
    assert (S1 : forall n, (n <= length l)%nat -> sub (pre ++ b :: l ++ rest) (S (length pre)) n = Ret (firstn n l)).
    { intros n Ln. replace (pre ++ b :: l ++ rest) with ((pre ++ [b]) ++ firstn n l ++ skipn n l ++ rest) by (rewrite <- app_assoc; cbn [app]; rewrite (app_assoc (firstn n l)), firstn_skipn; reflexivity).
      apply sub_app; [rewrite app_length; cbn; lia|rewrite firstn_length; lia]. }
    assert (D : b = 0 \/ b = 0x80 \/ (b <> 0 /\ b <> 0x80)) by lia. destruct D as [->|[->|(N1 & N2)]].
    + destruct (Nat.ltb_spec (length l) 3); [discriminate|]. rewrite S1 by lia. cbn [bind]. destruct (sub _ _ 3); try discriminate. cbn [bind]. destruct (parse_historical _ _) as [[?|?]| |]; try discriminate. cbn [bind]. intros E. apply gives_inj in E. cbn. congruence.
    + rewrite S1 by lia. cbn [bind]. rewrite firstn_all. destruct (parse_historical _ _) as [[?|?]| |]; try discriminate. cbn [bind]. intros E. apply gives_inj in E. cbn. congruence.
    + assert (X : forall A (a c d : A), (match b with 0x00 => a | 0x80 => c | _ => d end) = d).
      { intros A a c d. destruct b as [|q|q]; [congruence| |reflexivity]. repeat (destruct q as [q|q|]; try reflexivity). congruence. }
      rewrite X, S1 by lia. rewrite firstn_all. cbn [bind]. intros E. apply gives_inj in E. destruct (Z.eqb_spec b 0); [contradiction|]. congruence.
Qed.
Lemma layout_more atr x ts t0 gs hist tck rest : bytes atr -> ~ td4 atr -> atr_parse atr = Ret (inr x) -> layout atr ts t0 gs hist tck rest -> tck_valid t0 gs hist tck ->
  i_atr x = atr ++ repeat 0 (33 - length atr) /\ i_len x = length atr /\ i_T0 x = t0 /\ status_fields (i_status x) = (i_LCS x, i_SW1 x, i_SW2 x) /\ i_TCK x = hd 0 tck /\ status_spec hist (i_status x) /\ hist_valid ne hist /\
  match hist with [] => i_hist x = None /\ i_status x = None | b :: l => i_hist x = Some (if b =? 0 then firstn (length l - 3) l else l) end.
Proof.
  intros B N E Ly Vt. destruct (layout_facts _ _ _ _ _ _ _ _ B N E Ly) as (F & T & G & Lh). pose proof (groups_len _ _ _ _ _ _ _ Ly N) as Lg. destruct Ly as (Ea & _ & _).
  assert (L : (length atr <= 33)%nat) by (unfold atr_parse in E; destruct (Nat.ltb_spec 33 (length atr)); [rewrite orb_true_r in E; discriminate|lia]).
  destruct (atr_start atr ts t0 gs _ B L Ea G Lg (f_ts _ _ _ _ F) (f_valid _ _ _ _ F)) as (tk & p & Etk & Es). rewrite E in Es. symmetry in Es.
  pose proof (finish_inv _ _ _ _ _ _ _ _ _ Es) as (F1 & _). apply finish_more in Es as (F2 & F3 & F4 & next & F5 & F6). rewrite land15 in F5.
  assert (Bh : bytes hist) by (rewrite Ea in B; apply Forall_inv_tail, Forall_inv_tail in B; rewrite !bytes_app in B; tauto).
  assert (Ebuf : atr ++ repeat 0 (33 - length atr) = (ts :: t0 :: flat_map goctets gs) ++ hist ++ (tck ++ rest ++ repeat 0 (33 - length atr))).
  { rewrite Ea at 1. cbn [app]. rewrite <- !app_assoc. reflexivity. }
  assert (Ei : (2 + length (flat_map goctets gs))%nat = length (ts :: t0 :: flat_map goctets gs)) by (cbn [length]; lia).
  pose proof (parse_hist_spec _ _ _ (t0 mod 16) _ _ Ebuf Ei Lh Bh) as P. rewrite F5 in P. unfold gives in P. destruct P as (Hv & En & Ss & _).
  rewrite Ei in F5. rewrite Ebuf in F5. pose proof (kept_hist _ _ _ _ _ _ _ _ Lh F5) as Kh.
  split; [exact F1|]. split; [exact F2|]. split; [exact F3|]. split; [exact F4|]. split.
  - destruct Vt as [(Rq & c & -> & X)|(Rq & ->)].
    + apply needs_spec in Rq. rewrite Rq in Etk. subst tk. rewrite Ebuf in F6.
      replace ((ts :: t0 :: flat_map goctets gs) ++ hist ++ [c] ++ rest ++ repeat 0 (33 - length atr)) with (((ts :: t0 :: flat_map goctets gs) ++ hist) ++ c :: rest ++ repeat 0 (33 - length atr)) in F6 by (rewrite <- !app_assoc; reflexivity).
      rewrite rd_app_mid in F6 by (rewrite app_length; cbn [length]; lia). injection F6 as <-. reflexivity.
    + assert (existsb needs gs = false) as Q by (destruct (existsb needs gs) eqn:Q; [exfalso; apply Rq; apply needs_spec; exact Q|reflexivity]). rewrite Q in Etk. subst tk. exact F6.
  - split; [exact Ss|]. split; [exact Hv|]. destruct hist as [|b l]; [split; [exact Kh|exact Ss]|exact Kh].
Qed.

(** ** Printing *)
Lemma octet_line_some name i b t : is_byte b -> (i < 100)%nat -> octet_line name i (Some b) t = octet_text (lit name ++ decimal_text (Z.of_nat i)) b t.
Proof. intros B L. unfold octet_line, octet_text. rewrite p_dec_text by lia. rewrite <- hex2_02X by exact B. unfold newline, nl. rewrite <- !app_assoc. reflexivity. Qed.
Lemma head_line name b t : is_byte b -> lit "  " ++ lit name ++ lit " = 0x" ++ p_02X b ++ lit ": " ++ t ++ newline = octet_text (lit name) b t.
Proof. intros B. unfold octet_text. rewrite <- hex2_02X by exact B. reflexivity. Qed.
Lemma inter_print name i o m s : (forall b, o = Some b -> is_byte b) -> (i < 100)%nat -> m = Ret s -> inter name i o m = Ret (iface_text name i o s).
Proof.
  intros B L ->. unfold inter, iface_text. destruct o as [b|]; cbn [bind].
  - rewrite octet_line_some by auto. reflexivity.
  - replace (i <? 3)%nat with (i <=? 2)%nat by (destruct (Nat.leb_spec i 2), (Nat.ltb_spec i 3); lia || reflexivity). destruct (i <=? 2)%nat; [|reflexivity]. cbn [bind]. unfold octet_line. rewrite p_dec_text by lia.
    rewrite <- !app_assoc. reflexivity.
Qed.
Lemma shown_by_ok m new s : m = Ret (true, new) -> cstring new = Some s -> shown_by m = Ret s.
Proof. intros -> C. unfold shown_by. cbn [bind]. apply p_s_cstring, C. Qed.
Lemma hist_print x hist beyond str : bytes hist -> hist <> [] -> i_T1 x = hd 0 hist -> T1_get_string x = match hist with [] => None | b :: _ => Some (category_text b) end ->
  hist_valid ne hist -> printable_hist hist -> (540 < length str)%nat ->
  match hist with [] => i_hist x = None /\ i_status x = None | b :: l => i_hist x = Some (if b =? 0 then firstn (length l - 3) l else l) end ->
  exists h, print_historical x beyond str = Ret h /\ hist_text hist (rule_line ++ h).
Proof.
  intros B NE T1 Tt Hv Hp Ls Kh. destruct hist as [|b l]; [contradiction|]. cbn [hd] in T1. assert (Bb : is_byte b) by (inversion B; assumption). unfold print_historical. rewrite Kh, Tt, T1.
  change (lit "  T1  = 0x" ++ p_02X b ++ lit ": " ++ category_text b ++ newline) with (lit "  " ++ lit "T1 " ++ lit " = 0x" ++ p_02X b ++ lit ": " ++ category_text b ++ newline). rewrite head_line by exact Bb.
  assert (D : b = 0 \/ b = 0x80 \/ (b <> 0 /\ b <> 0x80)) by lia. destruct D as [->|[->|(N1 & N2)]].
  - cbn in Hv. destruct Hv as (h & si & -> & L3 & (objs & F & Eh) & Nh). cbn [Z.eqb negb andb]. rewrite app_length, L3, Nat.add_sub, firstn_length_app. rewrite Eh in *. change (flat_map (fun o => ctlv_enc (fst o) (snd o)) objs) with (objects_enc objs) in *.
    unfold ctlv_itr_init. destruct (Nat.eqb_spec (length (objects_enc objs)) 0) as [Z0|Z0]; [exfalso; apply Nh; destruct (objects_enc objs); [reflexivity|discriminate]|]. cbn [snd].
    destruct (objects_print objs F) with (fuel := Datatypes.S (length (objects_enc objs))) (beyond := beyond) (str := str) as (t & Et & Ot); [apply Hp; [exact F|right; eauto]|exact Ls|lia|].
    rewrite Et. cbn [bind]. eexists. split; [reflexivity|]. apply ht_00; assumption.
  - cbn in Hv. destruct Hv as ((objs & F & Eh) & Nh). cbn [Z.eqb Pos.eqb negb andb]. rewrite Eh in *. change (flat_map (fun o => ctlv_enc (fst o) (snd o)) objs) with (objects_enc objs) in *.
    unfold ctlv_itr_init. destruct (Nat.eqb_spec (length (objects_enc objs)) 0) as [Z0|Z0]; [exfalso; apply Nh; destruct (objects_enc objs); [reflexivity|discriminate]|]. cbn [snd].
    destruct (objects_print objs F) with (fuel := Datatypes.S (length (objects_enc objs))) (beyond := beyond) (str := str) as (t & Et & Ot); [apply Hp; [exact F|left; reflexivity]|exact Ls|lia|].
    rewrite Et. cbn [bind]. eexists. split; [reflexivity|]. apply ht_80; assumption.
  - destruct (Z.eqb_spec b 0); [contradiction|]. destruct (Z.eqb_spec b 128); [contradiction|]. cbn [negb andb]. eexists. split; [reflexivity|].
    unfold print_buf. rewrite hex_02X by (inversion B; assumption). rewrite <- !app_assoc. apply (ht_other b l); assumption.
Qed.
Lemma status_bytes hist st : bytes hist -> status_spec hist (Some st) -> bytes st.
Proof.
  assert (K : forall objs d, Forall ctlv_ok objs -> (forall s, d = Some s -> bytes s) -> status_in objs d = Some st -> bytes st).
  { intros objs d F Hd. unfold status_in. destruct (find _ (rev objs)) as [o|] eqn:E; [|auto]. apply find_some in E as (I & _). apply in_rev in I. rewrite Forall_forall in F. destruct (F _ I) as (_ & _ & Bo). congruence. }
  intros B H. destruct hist as [|b l]; [discriminate|]. assert (D : b = 0 \/ b = 0x80 \/ (b <> 0 /\ b <> 0x80)) by lia. destruct D as [->|[->|(N1 & N2)]]; cbn in H.
  - destruct H as (objs & si & F & -> & _ & E). eapply K; [exact F| |symmetry; exact E]. intros s [= <-]. inversion B as [|? ? _ B2]. rewrite bytes_app in B2. tauto.
  - destruct H as (objs & F & -> & E). eapply K; [exact F| |symmetry; exact E]. discriminate.
  - exfalso. destruct b as [|q|q]; [congruence| |discriminate]. repeat (destruct q as [q|q|]; try discriminate). congruence.
Qed.
Lemma sw_short a b : is_byte a -> is_byte b -> (length (sw_exactly a b) <= 100)%nat.
Proof.
  intros B1 B2. assert (G : forallb (fun a => forallb (fun b => length (sw_exactly (Z.of_nat a) (Z.of_nat b)) <=? 100)%nat (seq 0 256)) (seq 0 256) = true) by (vm_compute; reflexivity).
  unfold is_byte in *. rewrite forallb_forall in G. specialize (G (Z.to_nat a) ltac:(apply in_seq; lia)). cbn beta in G. rewrite forallb_forall in G. specialize (G (Z.to_nat b) ltac:(apply in_seq; lia)).
  cbn beta in G. rewrite !Z2Nat.id in G by lia. apply Nat.leb_le in G. exact G.
Qed.
Lemma status_print x str : (forall st, i_status x = Some st -> bytes st) -> status_fields (i_status x) = (i_LCS x, i_SW1 x, i_SW2 x) -> (540 < length str)%nat ->
  exists t, status_lines x str = Ret t /\ status_text (i_status x) t.
Proof.
  intros B E Ls. unfold status_lines, status_text. destruct (i_status x) as [st|]; [|exists []; split; reflexivity]. specialize (B st eq_refl).
  assert (V : status_values st = (i_LCS x, i_SW1 x, i_SW2 x) /\ is_byte (i_LCS x) /\ is_byte (i_SW1 x) /\ is_byte (i_SW2 x)).
  { assert (is_byte 0) by (unfold is_byte; lia). destruct st as [|a [|b [|c [|d st]]]]; cbn in E |- *; injection E as <- <- <-; split; try reflexivity; repeat split; repeat match goal with H : bytes (_ :: _) |- _ => inversion H; clear H; subst | H : Forall is_byte (_ :: _) |- _ => inversion H; clear H; subst end; unfold is_byte in *; lia. }
  destruct V as (-> & Bl & B1 & B2). generalize dependent (i_LCS x). generalize dependent (i_SW1 x). generalize dependent (i_SW2 x). intros b B2 a B1 l _ Bl.
  assert (Ll : life_says l (lcs_get_string l)) by (pose proof (life_exact l Bl) as H; unfold life_says; destruct (iso_life l); tauto).
  pose proof (sw_exactly_says a b) as Sw.
  assert (Eq : lit "  LCS = " ++ p_02X l ++ lit ": " ++ lcs_get_string l ++ newline = lit "  LCS = " ++ hex2 l ++ lit ": " ++ lcs_get_string l ++ nl) by (rewrite hex2_02X by exact Bl; reflexivity). rewrite Eq. clear Eq.
  destruct (negb (a =? 0) || negb (b =? 0)) eqn:Z.
  - destruct (sw_shown a b str B1 B2) as (new & En & (Ln & Cn)); [destruct str; [cbn in Ls; lia|discriminate]|]. rewrite sw_sweep in Cn by assumption. rewrite firstn_all2 in Cn by (pose proof (sw_short a b B1 B2); lia).
    rewrite (shown_by_ok _ _ _ En Cn). cbn [bind]. eexists. split; [reflexivity|]. exists (lcs_get_string l), (sw_exactly a b). split; [exact Ll|]. split; [exact Sw|].
    replace ((a =? 0) && (b =? 0)) with false by (destruct (a =? 0), (b =? 0); auto; discriminate). rewrite !hex2_02X by assumption. unfold rule, rule_line, newline, nl. rewrite <- !app_assoc. reflexivity.
  - eexists. split; [reflexivity|]. exists (lcs_get_string l), (sw_exactly a b). split; [exact Ll|]. split; [exact Sw|].
    replace ((a =? 0) && (b =? 0)) with true by (destruct (a =? 0), (b =? 0); auto; discriminate). unfold rule, rule_line, newline, nl. rewrite app_nil_r. reflexivity.
Qed.

Lemma fine_text str ok m : fine str ok m -> ok = true -> str <> [] -> exists new s, m = Ret (true, new) /\ cstring new = Some s.
Proof. intros (new & E & _ & H) -> N. destruct (H eq_refl N) as (s & Hs). eauto. Qed.
(** The texts of the API functions. *)
Definition gives_text (m : out (bool * list Z)) (s : list Z) : Prop := exists new, m = Ret (true, new) /\ cstring new = Some s.
Lemma group_print ts t0 gs x i str sa sb sc sd : facts ts t0 gs x -> (1 <= i <= 4)%nat -> gives_text (TAi_get_string x i str) (sa i) -> gives_text (TBi_get_string x i str) (sb i) -> gives_text (TCi_get_string x i str) (sc i) ->
  (byte_of gD i gs <> None -> gives_text (TDi_get_string x i str) (sd i)) -> group_lines x i str = Ret (group_text gs sa sb sc sd i).
Proof.
  intros F Hi (na & Ea & Ca) (nb & Eb & Cb) (nc & Ec & Cc) Hd. unfold group_lines. destruct (f_deref _ _ _ _ F i ltac:(lia)) as (-> & -> & -> & ->). cbn [bind].
  assert (Bf : forall f, f = gA \/ f = gB \/ f = gC \/ f = gD -> forall b, byte_of f i gs = Some b -> is_byte b).
  { intros f Hf. apply byte_of_byte. intros g Hg. destruct (group_bytes gs (f_bytes _ _ _ _ F) g Hg) as (B1 & B2 & B3 & B4). destruct Hf as [->|[->|[->| ->]]]; assumption. }
  rewrite (inter_print "TA" i _ _ (sa i)) by (eauto using shown_by_ok; lia). cbn [bind]. rewrite (inter_print "TB" i _ _ (sb i)) by (eauto using shown_by_ok; lia). cbn [bind]. rewrite (inter_print "TC" i _ _ (sc i)) by (eauto 6 using shown_by_ok; lia). cbn [bind].
  unfold group_text, present. replace (i <? 3)%nat with (i <=? 2)%nat by (destruct (Nat.leb_spec i 2), (Nat.ltb_spec i 3); lia || reflexivity).
  destruct (byte_of gD i gs) as [t|] eqn:Ed; [|reflexivity]. destruct Hd as (nd & E & C); [discriminate|]. rewrite (shown_by_ok _ _ _ E C). cbn [bind]. rewrite octet_line_some; [reflexivity| |lia]. apply (Bf gD); auto.
Qed.
Lemma atr_print atr x ts t0 gs hist tck rest beyond str : bytes atr -> ~ td4 atr -> atr_parse atr = Ret (inr x) -> layout atr ts t0 gs hist tck rest -> tck_valid t0 gs hist tck -> printable_hist hist -> (540 < length str)%nat ->
  exists s0 sa sb sc sd h st txt, gives_text (T0_get_string x str) s0 /\
    (forall i, (1 <= i <= 4)%nat -> gives_text (TAi_get_string x i str) (sa i) /\ gives_text (TBi_get_string x i str) (sb i) /\ gives_text (TCi_get_string x i str) (sc i) /\ (byte_of gD i gs <> None -> gives_text (TDi_get_string x i str) (sd i))) /\
    hist_text hist h /\ status_spec hist st /\ status_text st txt /\
    print_atr x beyond str = Ret (atr_text atr ts t0 gs tck s0 sa sb sc sd h txt).
Proof.
  intros B N E Ly Vt Hp Ls. destruct (layout_facts _ _ _ _ _ _ _ _ B N E Ly) as (F & T & G & Lh). destruct (layout_more _ _ _ _ _ _ _ _ B N E Ly Vt) as (M1 & M2 & M3 & M4 & M5 & M6 & M7 & M8).
  assert (NS : str <> []) by (destruct str; [cbn in Ls; lia|discriminate]).
  assert (Bh : bytes hist /\ is_byte ts /\ is_byte t0 /\ is_byte (hd 0 tck)).
  { destruct Ly as (Ea & _). rewrite Ea in B. pose proof (Forall_inv B). apply Forall_inv_tail in B. pose proof (Forall_inv B). apply Forall_inv_tail in B. rewrite !bytes_app in B. split; [tauto|]. split; [assumption|]. split; [assumption|].
    destruct tck as [|c tck]; [unfold is_byte; cbn; lia|]. destruct B as (_ & _ & B & _). inversion B; assumption. }
  destruct Bh as (Bh & Bts & Bt0 & Btck).
  assert (X : forall m ok, fine str ok m -> ok = true -> exists s, gives_text m s) by (intros m ok Hf Ho; destruct (fine_text _ _ _ Hf Ho NS) as (new & s & Y); exists s, new; exact Y).
  destruct (X _ _ (T0_fine x str) eq_refl) as (s0 & H0).
  assert (P : forall (f : nat -> out (bool * list Z)), (forall i, (1 <= i <= 4)%nat -> exists s, gives_text (f i) s) -> exists s : nat -> list Z, forall i, (1 <= i <= 4)%nat -> gives_text (f i) (s i)).
  { intros f Hf. destruct (Hf 1%nat ltac:(lia)) as (s1 & ?). destruct (Hf 2%nat ltac:(lia)) as (s2 & ?). destruct (Hf 3%nat ltac:(lia)) as (s3 & ?). destruct (Hf 4%nat ltac:(lia)) as (s4 & ?).
    exists (fun i => match i with 1 => s1 | 2 => s2 | 3 => s3 | _ => s4 end)%nat. intros i Hi. assert (i = 1 \/ i = 2 \/ i = 3 \/ i = 4)%nat as [->|[->|[->| ->]]] by lia; assumption. }
  assert (I14 : forall i, (1 <= i <= 4)%nat -> in14 i = true) by (intros i Hi; assert (i = 1 \/ i = 2 \/ i = 3 \/ i = 4)%nat as [->|[->|[->| ->]]] by lia; reflexivity).
  destruct (P (fun i => TAi_get_string x i str)) as (sa & Ha); [intros i Hi; eapply X; [eapply TA_fine; exact F|auto]|].
  destruct (P (fun i => TBi_get_string x i str)) as (sb & Hb); [intros i Hi; eapply X; [eapply TB_fine; exact F|auto]|].
  destruct (P (fun i => TCi_get_string x i str)) as (sc & Hc); [intros i Hi; eapply X; [eapply TC_fine; exact F|auto]|].
  destruct (P (fun i => match byte_of gD i gs with Some _ => TDi_get_string x i str | None => Ret (true, [0]) end)) as (sd & Hd).
  { intros i Hi. destruct (byte_of gD i gs) eqn:Ed; [|exists [], [0]; split; reflexivity]. eapply X; [eapply TD_fine; exact F|]. rewrite Ed, I14 by exact Hi. reflexivity. }
  assert (Hd' : forall i, (1 <= i <= 4)%nat -> byte_of gD i gs <> None -> gives_text (TDi_get_string x i str) (sd i)) by (intros i Hi Nd; specialize (Hd i Hi); cbn beta in Hd; destruct (byte_of gD i gs); [exact Hd|contradiction]).
  assert (Gr : groups_lines 4 x 1 str = Ret (flat_map (group_text gs sa sb sc sd) [1; 2; 3; 4]%nat)).
  { assert (GP : forall i, (1 <= i <= 4)%nat -> group_lines x i str = Ret (group_text gs sa sb sc sd i)) by (intros i Hi; eapply group_print; eauto).
    cbn [groups_lines]. rewrite !GP by lia. cbn [bind flat_map]. rewrite !app_nil_r. reflexivity. }
  assert (Sp : exists t, status_lines x str = Ret t /\ status_text (i_status x) t) by (apply status_print; [intros st Es; eapply status_bytes; [exact Bh|rewrite <- Es; exact M6]|exact M4|exact Ls]). destruct Sp as (tst & Est & Tst).
  pose proof (T1_ok _ _ _ _ _ F T Lh Bh) as T1t.
  assert (Hh : exists h, hist_text hist h /\ (if i_K x =? 0 then Ret [] else let* a := print_historical x beyond str in let* b := status_lines x str in Ret (rule ++ a ++ b)) = Ret (h ++ tst)).
  { rewrite (f_K _ _ _ _ F), <- Lh. destruct hist as [|b l].
    - exists []. split; [constructor|]. destruct M8 as (_ & M8). unfold status_text in Tst. rewrite M8 in Tst. subst tst. reflexivity.
    - destruct (hist_print x (b :: l) beyond str Bh ltac:(discriminate) T T1t M7 Hp Ls M8) as (h & Eh & Th). exists (rule_line ++ h). split; [exact Th|]. destruct (Z.eqb_spec (Zlen (b :: l)) 0) as [Z0|Z0]; [unfold Zlen in Z0; cbn [length] in Z0; lia|].
      rewrite Eh, Est. cbn [bind]. unfold rule, rule_line, newline, nl. rewrite <- !app_assoc. reflexivity. }
  destruct Hh as (h & Th & Eh). exists s0, sa, sb, sc, sd, h, (i_status x), tst. split; [exact H0|]. split; [intros i Hi; repeat split; auto|]. split; [exact Th|]. split; [exact M6|]. split; [exact Tst|].
  unfold print_atr. destruct H0 as (n0 & E0 & C0). rewrite (shown_by_ok _ _ _ E0 C0). cbn [bind]. rewrite Gr. cbn [bind]. rewrite Eh. cbn [bind]. f_equal. unfold atr_text.
  rewrite M1, M2, M3, M5, firstn_length_app, (f_TS _ _ _ _ F). unfold print_buf. rewrite hex_02X by exact B. rewrite <- !app_assoc.
  assert (Ets : TS_get_string x = lit (if ts =? 0x3B then "Direct convention" else "Inverse convention")).
  { unfold TS_get_string. rewrite (f_TS _ _ _ _ F). destruct (f_ts _ _ _ _ F) as [->| ->]; reflexivity. }
  rewrite Ets. unfold octet_text. rewrite !hex2_02X by assumption. unfold rule, rule_line, newline, nl. rewrite <- !app_assoc. reflexivity.
Qed.
