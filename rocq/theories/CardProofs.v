(** Proofs about the descriptions of historical bytes. *)
From Coq Require Import String.
From Verif Require Import Base BaseLemmas StrModel CapduModel FieldsModel FlagsModel TlvSpec BerSpec FieldsSpec StrSpec CapduSpec
  FlagsSpec StrProofs CapduProofs FlagsProofs FlagsTexts CardModel CardSpec.
Open Scope string_scope.
Open Scope Z_scope.
Open Scope list_scope.
Notation length := List.length.

Lemma iso_emit_listed r texts str : exists new, iso_emit r texts str = Ret (r, new) /\ in_iso_lines str new texts.
Proof.
  destruct (iso_list texts str) as (itr & E & A & B & C). unfold iso_emit. rewrite E. cbn [bind]. exists (s_buf itr). split; [reflexivity|].
  split; [exact A|]. split; [exact B|exact C].
Qed.
Lemma in_iso_length str new texts : in_iso_lines str new texts -> length new = length str.
Proof.
  intros (A & B & _). destruct (fitting (length str) texts) as [|k ks]; [rewrite B; reflexivity|]. destruct (A ltac:(discriminate)) as (L & ->). rewrite app_length. cbn [length]. rewrite skipn_length. cbn [length] in L. lia.
Qed.
Lemma in_iso_all str new texts n : in_iso_lines str new texts -> texts <> [] -> (length (lines texts) <= n)%nat -> (n < length str)%nat -> text_in str new (lines texts).
Proof. intros (A & _ & C) N L1 L2. rewrite C in A by lia. apply A, N. Qed.

Lemma service_run b : is_byte b -> run [b] service_prog = Ret (table_texts T_service [b]).
Proof. intros H. apply (prog_run 1); [repeat constructor; unfold is_byte in H; lia|reflexivity|vm_compute; reflexivity]. Qed.
Lemma service_length b : is_byte b -> (length (lines (table_texts T_service [b])) <= 300)%nat.
Proof.
  intros H. apply Nat.leb_le. revert b H. apply byte_sweep. vm_compute. reflexivity.
Qed.
Lemma service_some b : is_byte b -> table_texts T_service [b] <> [].
Proof.
  intros H. assert (X : negb (length (table_texts T_service [b]) =? 0)%nat = true) by (revert b H; apply byte_sweep; vm_compute; reflexivity).
  intros E. rewrite E in X. discriminate.
Qed.

Lemma caps1_run v : bytes v -> 1 <= Zlen v -> run v caps1_prog = Ret (table_texts T_selection v).
Proof. intros B L. apply (prog_run 1); [exact B|exact L|vm_compute; reflexivity]. Qed.
Lemma caps2_run v : bytes v -> 2 <= Zlen v -> run v caps2_prog = Ret (table_texts T_coding v).
Proof. intros B L. apply (prog_run 2); [exact B|exact L|vm_compute; reflexivity]. Qed.
Definition T_third : list row := [ Oct 3 ["Command chaining"; "Extended Lc and Le fields"] ].
Lemma caps3_run v : bytes v -> 3 <= Zlen v -> run v caps3_prog = Ret (table_texts T_third v).
Proof. intros B L. apply (prog_run 3); [exact B|exact L|vm_compute; reflexivity]. Qed.
Definition T_assign : list row :=
  [ Val 3 5 4 [(2, "Logical channel number assignment: by the card"); (1, "Logical channel number assignment: by the interface device"); (0, "No logical channel")] "" ].
Lemma chan_run v : bytes v -> 3 <= Zlen v -> run v chan_prog = Ret (table_texts T_assign v).
Proof. intros B L. apply (prog_run 3); [exact B|exact L|vm_compute; reflexivity]. Qed.
Lemma assign_range b : is_byte b -> (Z.land b 0x18 =? 0x18) = (range b 5 4 =? 3).
Proof. intros H. apply Bool.eqb_prop. revert b H. apply byte_sweep. vm_compute. reflexivity. Qed.
Definition T_count : list row :=
  [ Val 3 3 1 [(0, "Maximum number of logical channels: 1"); (1, "Maximum number of logical channels: 2"); (2, "Maximum number of logical channels: 3");
               (3, "Maximum number of logical channels: 4"); (4, "Maximum number of logical channels: 5"); (5, "Maximum number of logical channels: 6");
               (6, "Maximum number of logical channels: 7"); (7, "Maximum number of logical channels: 8 or more")] "" ].
Lemma count_text b : is_byte b -> ll_eqb [max_chan b] (flat_map (row_says b) T_count) = true.
Proof. revert b. apply byte_sweep. vm_compute. reflexivity. Qed.
Lemma count_run v : bytes v -> 3 <= Zlen v -> [max_chan (octet v 3)] = table_texts T_count v.
Proof.
  intros B L. pose proof (count_text (octet v 3) (octet_byte v 3 B)) as E. apply ll_eqb_eq in E. rewrite E. unfold table_texts, T_count. cbn [flat_map].
  rewrite row_says_texts with (n := 3) by reflexivity. reflexivity.
Qed.
Lemma channels_split v : table_texts T_channels v = table_texts T_third v ++ table_texts T_assign v ++ table_texts T_count v.
Proof. rewrite <- !table_app. reflexivity. Qed.

Lemma caps_ok v str : bytes v -> v <> [] -> ((length v < 3)%nat \/ range (octet v 3) 5 4 <> 3) ->
  exists new, caps_list v str = Ret (0, new) /\ in_iso_lines str new (caps_texts v).
Proof.
  intros B N R. unfold caps_list, caps_texts. rewrite Zlen_pos by exact N. assert (1 <= Zlen v) by (unfold Zlen; destruct v; [contradiction|cbn [length]; lia]).
  rewrite caps1_run by auto. cbn [bind].
  destruct (Z.ltb_spec (Zlen v) 2) as [H2|H2]; [destruct (Nat.leb_spec 2 (length v)) as [X|_]; [unfold Zlen in H2; lia|]|].
  { destruct (Nat.leb_spec 3 (length v)) as [X|_]; [unfold Zlen in H2; lia|]. rewrite !app_nil_r. apply iso_emit_listed. }
  destruct (Nat.leb_spec 2 (length v)) as [_|X]; [|unfold Zlen in H2; lia]. rewrite caps2_run by auto. cbn [bind].
  destruct (Z.ltb_spec (Zlen v) 3) as [H3|H3].
  { destruct (Nat.leb_spec 3 (length v)) as [X|_]; [unfold Zlen in H3; lia|]. rewrite app_nil_r. apply iso_emit_listed. }
  destruct (Nat.leb_spec 3 (length v)) as [X|X]; [|unfold Zlen in H3; lia]. rewrite caps3_run by auto. cbn [bind].
  change 2%nat with (Z.to_nat 2). rewrite rd_octet by lia. cbn [bind]. change (2 + 1) with 3. rewrite assign_range by (apply octet_byte; exact B).
  destruct R as [R|R]; [lia|]. apply Z.eqb_neq in R. rewrite R. rewrite chan_run by auto. cbn [bind]. rewrite count_run by auto.
  rewrite channels_split. apply iso_emit_listed.
Qed.
Lemma caps_reserved v str : bytes v -> (3 <= length v)%nat -> range (octet v 3) 5 4 = 3 -> exists new, caps_list v str = Ret (-1, new) /\ length new = length str.
Proof.
  intros B N R. assert (3 <= Zlen v) by (unfold Zlen; lia). unfold caps_list. rewrite Zlen_pos by (destruct v; [cbn in N; lia|discriminate]).
  rewrite caps1_run by (auto; lia). cbn [bind]. destruct (Z.ltb_spec (Zlen v) 2); [lia|]. rewrite caps2_run by (auto; lia). cbn [bind].
  destruct (Z.ltb_spec (Zlen v) 3); [lia|]. rewrite caps3_run by (auto; lia). cbn [bind].
  change 2%nat with (Z.to_nat 2). rewrite rd_octet by lia. cbn [bind]. change (2 + 1) with 3. rewrite assign_range by (apply octet_byte; exact B). rewrite R. cbn [Z.eqb Pos.eqb].
  match goal with |- context [iso_emit ?r ?t ?s] => destruct (iso_emit_listed r t s) as (new & E & I) end. exists new. split; [exact E|]. eapply in_iso_length; exact I.
Qed.
Lemma lines_app a b : lines (a ++ b) = lines a ++ lines b.
Proof. unfold lines. apply flat_map_app. Qed.
(** Only one octet matters. *)
Lemma table_one t v n : forallb (fun r => match row_at r with Some m => m =? n | None => match r with Oct m _ => m =? n | _ => false end end) t = true ->
  forall w, octet w n = octet v n -> table_texts t v = table_texts t w.
Proof.
  intros H w E. unfold table_texts. induction t as [|r t IH]; [reflexivity|]. cbn [forallb] in H. apply andb_prop in H as [H1 H2]. cbn [flat_map]. rewrite IH by exact H2. f_equal.
  destruct r; cbn in H1; try discriminate; apply Z.eqb_eq in H1; subst; cbn [row_texts]; rewrite E; reflexivity.
Qed.
Lemma octet_at b : octet [b] 1 = b /\ octet [0; b] 2 = b /\ octet [0; 0; b] 3 = b.
Proof. repeat split. Qed.
Lemma sel_length v : bytes v -> (length (lines (table_texts T_selection v)) <= 230)%nat.
Proof.
  intros B. rewrite (table_one T_selection v 1 eq_refl [octet v 1]) by reflexivity. pose proof (octet_byte v 1 B) as H. revert H. generalize (octet v 1). intros b H.
  apply Nat.leb_le. revert b H. apply byte_sweep. vm_compute. reflexivity.
Qed.
Lemma cod_length v : bytes v -> (length (lines (table_texts T_coding v)) <= 160)%nat.
Proof.
  intros B. rewrite (table_one T_coding v 2 eq_refl [0; octet v 2]) by reflexivity. pose proof (octet_byte v 2 B) as H. revert H. generalize (octet v 2). intros b H.
  apply Nat.leb_le. revert b H. apply byte_sweep. vm_compute. reflexivity.
Qed.
Lemma chan_length v : bytes v -> (length (lines (table_texts T_channels v)) <= 150)%nat.
Proof.
  intros B. rewrite (table_one T_channels v 3 eq_refl [0; 0; octet v 3]) by reflexivity. pose proof (octet_byte v 3 B) as H. revert H. generalize (octet v 3). intros b H.
  apply Nat.leb_le. revert b H. apply byte_sweep. vm_compute. reflexivity.
Qed.
Lemma caps_length v : bytes v -> (length (lines (caps_texts v)) <= 540)%nat.
Proof.
  intros B. unfold caps_texts. rewrite !lines_app, !app_length. pose proof (sel_length v B). pose proof (cod_length v B). pose proof (chan_length v B).
  destruct (2 <=? length v)%nat, (3 <=? length v)%nat; cbn [lines flat_map length]; lia.
Qed.

(** Names of data objects. *)
Lemma ctlv_name t s : In (t, s) ctlv_names -> ctlv_tag_string (t mod 16) = lit s.
Proof. unfold ctlv_names. intros H. repeat (destruct H as [H|H]; [injection H as <- <-; reflexivity|]). contradiction. Qed.
Lemma ctlv_unknown k : 0 <= k < 16 -> (forall t s, In (t, s) ctlv_names -> t mod 16 <> k) -> ctlv_tag_string k = lit "Unknown".
Proof.
  intros R N. assert (X : k = 0 \/ 9 <= k <= 14).
  { assert (k <> 1 /\ k <> 2 /\ k <> 3 /\ k <> 4 /\ k <> 5 /\ k <> 6 /\ k <> 7 /\ k <> 8 /\ k <> 15); [|lia].
    repeat split; intros ->; [eapply (N 0x41)|eapply (N 0x42)|eapply (N 0x43)|eapply (N 0x44)|eapply (N 0x45)|eapply (N 0x46)|eapply (N 0x47)|eapply (N 0x48)|eapply (N 0x4F)];
      try reflexivity; cbn; eauto 20. }
  assert (Y : k = 0 \/ k = 9 \/ k = 10 \/ k = 11 \/ k = 12 \/ k = 13 \/ k = 14) by lia. decompose [or] Y; subst; reflexivity.
Qed.
