(** Names and texts of fields. *)
From Coq Require Import String.
From Verif Require Import Base BaseLemmas TlvModel StrModel CapduModel FieldsModel FlagsModel TlvSpec BerSpec FieldsSpec StrSpec CapduSpec
  FlagsSpec TlvProofs StrProofs CapduProofs FieldsProofs FlagsProofs FlagsTexts FlagsMore FlagsData FlagsAuth InfoModel InfoSpec InfoProofs.
Open Scope string_scope.
Open Scope Z_scope.
Open Scope list_scope.
Notation length := List.length.

(** ** Names *)
Lemma nodup_documented : forallb (fun i => forallb (fun j => negb (fst (nth i documented (0, "")) =? fst (nth j documented (0, ""))) || (i =? j)%nat)
  (seq 0 (length documented))) (seq 0 (length documented)) = true.
Proof. vm_compute. reflexivity. Qed.
Lemma documented_one tag s s' : In (tag, s) documented -> In (tag, s') documented -> s = s'.
Proof.
  intros H H'. apply In_nth with (d := (0, "")) in H as (i & Li & Ei). apply In_nth with (d := (0, "")) in H' as (j & Lj & Ej).
  pose proof nodup_documented as N. rewrite forallb_forall in N. specialize (N i ltac:(apply in_seq; lia)). rewrite forallb_forall in N.
  specialize (N j ltac:(apply in_seq; lia)). rewrite Ei, Ej in N. cbn [fst] in N. rewrite Z.eqb_refl in N. cbn [negb orb] in N.
  apply Nat.eqb_eq in N. subst j. congruence.
Qed.
Lemma documented_not tag s : In tag [0x9F66; 0x9F6D; 0x9F6E] -> ~ In (tag, s) documented.
Proof.
  intros I H. assert (X : existsb (fun p => existsb (Z.eqb (fst p)) [0x9F66; 0x9F6D; 0x9F6E]) documented = true).
  { apply existsb_exists. exists (tag, s). split; [exact H|]. apply existsb_exists. exists tag. split; [exact I|apply Z.eqb_refl]. }
  vm_compute in X. discriminate.
Qed.
Lemma case_name e tag : match case_of e tag with Some (name, _, _) => In (tag, name) documented | None => forall s, ~ In (tag, s) documented end.
Proof.
  unfold case_of. rewrite <- (names_documented e). destruct (find _ (cases e)) as [[g [[name k] a]]|] eqn:F.
  - cbn [snd]. apply find_some in F as [I E]. cbn [fst] in E. apply Z.eqb_eq in E. subst g. unfold case_names.
    apply in_map_iff. exists (tag, (name, k, a)). split; [reflexivity|exact I].
  - intros s H. unfold case_names in H. apply in_map_iff in H as ([g x] & E & I). cbn [fst snd] in E. injection E as -> _.
    pose proof (find_none _ _ F _ I) as Q. cbn [fst] in Q. rewrite Z.eqb_refl in Q. discriminate.
Qed.
Lemma visa_ffi_iff v : bytes v -> exists b, visa_ffi (Octets v) = Ret b /\ (b = true <-> is_ffi v).
Proof.
  intros B. unfold visa_ffi, is_ffi. destruct (Nat.eqb_spec (length v) 4) as [L|L]; cbn [negb]; [|exists false; split; [reflexivity|split; [discriminate|tauto]]].
  destruct v as [|a [|b [|c [|d [|]]]]]; try discriminate. cbn [rd nth_error bind]. eexists. split; [reflexivity|].
  change (octet [a; b; c; d] 1) with a. change (octet [a; b; c; d] 3) with c. change (octet [a; b; c; d] 4) with d.
  apply uncons in B as [Ba _].
  pose proof (byte_sweep (fun a => Bool.eqb (Z.land a 0xE0 =? 0x20) (range a 8 6 =? 1)) ltac:(vm_compute; reflexivity) a Ba) as Q. cbn beta in Q.
  apply Bool.eqb_prop in Q. rewrite Q. rewrite !andb_true_iff, !Z.eqb_eq. split; intuition auto.
Qed.
Lemma caps_iff v : bytes v -> exists b, amex_caps4 (Octets v) = Ret b /\ (b = true <-> is_reader_caps v).
Proof.
  intros B. unfold amex_caps4, is_reader_caps. destruct (Nat.eqb_spec (length v) 4) as [L|L]; cbn [negb]; [|exists false; split; [reflexivity|split; [discriminate|tauto]]].
  destruct v as [|a [|b [|c [|d [|]]]]]; try discriminate. cbn [rd nth_error bind]. eexists. split; [reflexivity|].
  change (octet [a; b; c; d] 1) with a. change (octet [a; b; c; d] 2) with b. change (octet [a; b; c; d] 3) with c. change (octet [a; b; c; d] 4) with d.
  apply uncons in B as [Ba B]. apply uncons in B as [Bb B]. apply uncons in B as [Bc B]. apply uncons in B as [Bd _].
  pose proof (byte_sweep (fun a => Bool.eqb (Z.land a 0x20 =? 0) (negb (bit a 6)) && Bool.eqb (negb (Z.land a 0x10 =? 0)) (bit a 5) &&
    Bool.eqb (negb (Z.land a 0x08 =? 0)) (bit a 4) && Bool.eqb (Z.land a 0x03 =? 0) (range a 2 1 =? 0)) ltac:(vm_compute; reflexivity) a Ba) as Qa.
  pose proof (byte_sweep (fun a => Bool.eqb (negb (Z.land a 0x80 =? 0)) (bit a 8) && Bool.eqb (Z.land a 0x0F =? 0) (range a 4 1 =? 0)) ltac:(vm_compute; reflexivity) b Bb) as Qb.
  pose proof (byte_sweep (fun a => Bool.eqb (Z.land a 0x3F =? 0) (range a 6 1 =? 0)) ltac:(vm_compute; reflexivity) c Bc) as Qc.
  pose proof (byte_sweep (fun a => Bool.eqb (Z.land a 0x18 =? 0) (range a 5 4 =? 0) && Bool.eqb (Z.land a 0x07 =? 0) (range a 3 1 =? 0)) ltac:(vm_compute; reflexivity) d Bd) as Qd.
  cbn beta in Qa, Qb, Qc, Qd. rewrite !andb_true_iff, !Bool.eqb_true_iff in *.
  destruct Qa as [[[-> ->] ->] ->]. destruct Qb as [-> ->]. rewrite Qc. destruct Qd as [-> ->].
  rewrite !negb_true_iff, !Z.eqb_eq, Z.eqb_neq. split; intuition auto.
Qed.
Lemma ffi_caps v : is_ffi v -> is_reader_caps v -> bytes v -> False.
Proof.
  intros (L & R & _) (_ & F & _) B. destruct v as [|a v]; [discriminate|]. apply uncons in B as [Ba _].
  change (octet (a :: v) 1) with a in *.
  pose proof (byte_sweep (fun a => negb (range a 8 6 =? 1) || bit a 6) ltac:(vm_compute; reflexivity) a Ba) as Q. cbn beta in Q.
  rewrite R, F in Q. discriminate.
Qed.

(** The decision: name, format and action. *)
Definition chosen_name (o : option (string * kind * action)) : option string := match o with Some (n, _, _) => Some n | None => None end.
Lemma choose_name e tag v : bytes v -> exists o, choose e tag (Octets v) = Ret o /\ forall s, chosen_name o = Some s <-> field_name tag v s.
Proof.
  intros B. unfold choose. cbn [vlen].
  destruct (Z.eqb_spec tag 0x9F66) as [E1|N1].
  { eexists. split; [reflexivity|]. intros s. destruct (Nat.eqb_spec (length v) 4) as [L|L]; cbn [chosen_name]; (split; intros H).
    - injection H as <-. apply fn_ttq; assumption.
    - destruct H as [s I|? ?|?|?|?|?]; try (subst; discriminate); [exfalso; refine (documented_not tag s _ I); rewrite E1; cbn; tauto|reflexivity].
    - discriminate.
    - destruct H as [s I|? ?|?|?|?|?]; try (subst; discriminate); [exfalso; refine (documented_not tag s _ I); rewrite E1; cbn; tauto|contradiction]. }
  destruct (Z.eqb_spec tag 0x9F6D) as [E2|N2].
  { eexists. split; [reflexivity|]. intros s. destruct (Nat.eqb_spec (length v) 1) as [L|L]; cbn [chosen_name]; (split; intros H).
    - injection H as <-. apply fn_amex; assumption.
    - destruct H as [s I|? ?|?|?|?|?]; try (subst; discriminate); [exfalso; refine (documented_not tag s _ I); rewrite E2; cbn; tauto|reflexivity].
    - discriminate.
    - destruct H as [s I|? ?|?|?|?|?]; try (subst; discriminate); [exfalso; refine (documented_not tag s _ I); rewrite E2; cbn; tauto|contradiction]. }
  destruct (Z.eqb_spec tag 0x9F6E) as [E3|N3].
  { assert (ND : forall s, ~ In (tag, s) documented) by (intros s; apply documented_not; rewrite E3; cbn; tauto).
    destruct ((4 <? length v) && (length v <=? 32))%nat eqn:L.
    - assert (L' : (5 <= length v <= 32)%nat) by lia. eexists. split; [reflexivity|]. intros s. cbn [chosen_name]. split; intros H.
      + injection H as <-. apply fn_tpd; assumption.
      + destruct H as [s I|? ?|? ?|? ?|? F|? F]; try contradiction; [exfalso; exact (ND _ I)|reflexivity| |]; destruct F as [F _]; lia.
    - assert (L' : ~ (5 <= length v <= 32)%nat) by (destruct (Nat.ltb_spec 4 (length v)); destruct (Nat.leb_spec (length v) 32); cbn in L; try discriminate; lia).
      destruct (visa_ffi_iff v B) as (b1 & -> & I1). cbn [bind]. destruct b1.
      + assert (F1 : is_ffi v) by (apply I1; reflexivity). eexists. split; [reflexivity|]. intros s. cbn [chosen_name]. split; intros H.
        * injection H as <-. apply fn_ffi; assumption.
        * destruct H as [s I|? ?|? ?|? ?|? F|? F]; try contradiction; [exfalso; exact (ND _ I)|reflexivity|exfalso; exact (ffi_caps v F1 F B)].
      + assert (F1 : ~ is_ffi v) by (rewrite <- I1; discriminate). destruct (caps_iff v B) as (b2 & -> & I2). cbn [bind]. destruct b2.
        * assert (F2 : is_reader_caps v) by (apply I2; reflexivity). eexists. split; [reflexivity|]. intros s. cbn [chosen_name]. split; intros H.
          -- injection H as <-. apply fn_caps; assumption.
          -- destruct H as [s I|? ?|? ?|? ?|? F|? F]; try contradiction; [exfalso; exact (ND _ I)|reflexivity].
        * assert (F2 : ~ is_reader_caps v) by (rewrite <- I2; discriminate). eexists. split; [reflexivity|]. intros s. cbn [chosen_name]. split; intros H; [discriminate|].
          destruct H as [s I|? ?|? ?|? ?|? F|? F]; try contradiction. exfalso; exact (ND _ I). }
  eexists. split; [reflexivity|]. intros s. pose proof (case_name e tag) as C. destruct (case_of e tag) as [[[n k] a]|]; cbn [chosen_name]; split; intros H.
  - injection H as <-. apply fn_documented, C.
  - destruct H as [s I|? ?|? ?|? ?|? F|? F]; try contradiction. f_equal. exact (documented_one tag _ _ C I).
  - discriminate.
  - destruct H as [s I|? ?|? ?|? ?|? F|? F]; try contradiction. exfalso. exact (C _ I).
Qed.
Lemma info_names e tag v str r n k new : bytes v -> tlv_get_info e tag (Octets v) str = Ret (r, n, k, new) ->
  (forall s, n = Some s <-> field_name tag v s) /\ (n = None -> r = 1 /\ k = IsB /\ new = emptied str).
Proof.
  intros B H. unfold tlv_get_info in H. apply bind_Ret_inv in H as (s1 & E1 & H).
  assert (Es : s1 = emptied str) by (destruct str as [|c t]; [injection E1 as <-; reflexivity|rewrite wr_first in E1; injection E1 as <-; reflexivity]).
  destruct (choose_name e tag v B) as (o & E & N). rewrite E in H. cbn [bind] in H. destruct o as [[[name k0] a]|]; cbn [chosen_name] in N.
  - apply bind_Ret_inv in H as ([r' s2] & _ & H). injection H as <- <- <- <-. split; [exact N|discriminate].
  - injection H as <- <- <- <-. split; [exact N|]. auto.
Qed.
Lemma entry_names e tag n r name k : tlv_get_info e tag (Null n) [] = Ret (r, name, k, []) -> forall s, name = Some s <-> entry_name tag n s.
Proof.
  intros H. unfold tlv_get_info in H. cbn [bind] in H.
  assert (X : exists o, choose e tag (Null n) = Ret o /\ forall s, chosen_name o = Some s <-> entry_name tag n s).
  { unfold choose. cbn [vlen visa_ffi amex_caps4 bind].
    destruct (Z.eqb_spec tag 0x9F66) as [E1|N1]; [|destruct (Z.eqb_spec tag 0x9F6D) as [E2|N2]; [|destruct (Z.eqb_spec tag 0x9F6E) as [E3|N3]]].
    - assert (ND : forall s, ~ In (tag, s) documented) by (intros s; apply documented_not; rewrite E1; cbn; tauto).
      eexists. split; [reflexivity|]. intros s. destruct (Nat.eqb_spec n 4) as [L|L]; cbn [chosen_name]; (split; intros G).
      + injection G as <-. apply en_ttq; assumption.
      + destruct G as [s I|? ?|? ?|? ?]; try (subst; discriminate); [exfalso; exact (ND _ I)|reflexivity].
      + discriminate.
      + destruct G as [s I|? ?|? ?|? ?]; try (subst; discriminate); [exfalso; exact (ND _ I)|contradiction].
    - assert (ND : forall s, ~ In (tag, s) documented) by (intros s; apply documented_not; rewrite E2; cbn; tauto).
      eexists. split; [reflexivity|]. intros s. destruct (Nat.eqb_spec n 1) as [L|L]; cbn [chosen_name]; (split; intros G).
      + injection G as <-. apply en_amex; assumption.
      + destruct G as [s I|? ?|? ?|? ?]; try (subst; discriminate); [exfalso; exact (ND _ I)|reflexivity].
      + discriminate.
      + destruct G as [s I|? ?|? ?|? ?]; try (subst; discriminate); [exfalso; exact (ND _ I)|contradiction].
    - assert (ND : forall s, ~ In (tag, s) documented) by (intros s; apply documented_not; rewrite E3; cbn; tauto).
      destruct ((4 <? n) && (n <=? 32))%nat eqn:L; (eexists; split; [reflexivity|]); intros s; cbn [chosen_name]; (split; intros G).
      + injection G as <-. apply en_tpd; [assumption|lia].
      + destruct G as [s I|? ?|? ?|? ?]; try contradiction; [exfalso; exact (ND _ I)|reflexivity].
      + discriminate.
      + destruct G as [s I|? ?|? ?|? G]; try contradiction; [exfalso; exact (ND _ I)|].
        exfalso. destruct (Nat.ltb_spec 4 n); destruct (Nat.leb_spec n 32); cbn in L; try discriminate; lia.
    - eexists. split; [reflexivity|]. intros s. pose proof (case_name e tag) as C. destruct (case_of e tag) as [[[nm k'] a]|]; cbn [chosen_name]; split; intros G.
      + injection G as <-. apply en_documented, C.
      + destruct G as [s I|? ?|? ?|? ?]; try contradiction. f_equal. exact (documented_one tag _ _ C I).
      + discriminate.
      + destruct G as [s I|? ?|? ?|? ?]; try contradiction. exfalso. exact (C _ I). }
  destruct X as (o & E & N). rewrite E in H. cbn [bind] in H. destruct o as [[[nm k'] a]|]; cbn [chosen_name] in N.
  - apply bind_Ret_inv in H as ([r' s2] & _ & H). injection H as <- <- <- _. exact N.
  - injection H as <- <- <-. exact N.
Qed.
(** The fields that are lists of data objects. *)
Lemma info_kinds e tag x str r n k new : tlv_get_info e tag x str = Ret (r, n, k, new) ->
  (k = IsDol <-> In tag [0x8C; 0x8D; 0x9F38; 0x9F49]) /\ (k = IsTagList <-> tag = 0x9F4A).
Proof.
  intros H. unfold tlv_get_info in H. apply bind_Ret_inv in H as (s1 & E1 & H). apply bind_Ret_inv in H as (o & E & H).
  assert (X : (k = IsDol \/ k = IsTagList -> exists n' a, case_of e tag = Some (n', k, a)) /\ (forall n' k' a, ~ In tag [0x9F66; 0x9F6D; 0x9F6E] -> case_of e tag = Some (n', k', a) -> k = k')).
  { assert (Y : o = case_of e tag \/ In tag [0x9F66; 0x9F6D; 0x9F6E] /\ (o = None \/ exists n' a, o = Some (n', IsB, a))).
    { unfold choose in E. destruct (Z.eqb_spec tag 0x9F66) as [->|].
      - right. split; [cbn; tauto|]. injection E as <-. destruct (vlen x =? 4)%nat; eauto.
      - destruct (Z.eqb_spec tag 0x9F6D) as [->|].
        + right. split; [cbn; tauto|]. injection E as <-. destruct (vlen x =? 1)%nat; eauto.
        + destruct (Z.eqb_spec tag 0x9F6E) as [->|]; [|left; injection E as <-; reflexivity].
          right. split; [cbn; tauto|]. destruct ((4 <? vlen x) && (vlen x <=? 32))%nat; [injection E as <-; eauto|].
          apply bind_Ret_inv in E as (b & _ & E). destruct b; [injection E as <-; eauto|]. apply bind_Ret_inv in E as (b2 & _ & E). destruct b2; injection E as <-; eauto. }
    destruct Y as [->|[I [->|(n' & a & ->)]]].
    - destruct (case_of e tag) as [[[n' k'] a]|]; [|injection H as <- <- <- <-; split; [intros [|]; discriminate|discriminate]].
      apply bind_Ret_inv in H as ([r' s2] & _ & H). injection H as <- <- <- <-. split; [eauto|]. intros. congruence.
    - injection H as <- <- <- <-. split; [intros [|]; discriminate|contradiction].
    - apply bind_Ret_inv in H as ([r' s2] & _ & H). injection H as <- <- <- <-. split; [intros [|]; discriminate|contradiction]. }
  assert (Q : Forall (fun c => (snd (fst (snd c)) = IsDol -> In (fst c) [0x8C; 0x8D; 0x9F38; 0x9F49]) /\ (snd (fst (snd c)) = IsTagList -> fst c = 0x9F4A)) (cases e)).
  { unfold cases. repeat (apply Forall_cons; [cbn [fst snd]; split; intros Q0; first [discriminate Q0|reflexivity|cbn [In]; tauto]|]). apply Forall_nil. }
  assert (Q' : forall n' k' a, case_of e tag = Some (n', k', a) -> (k' = IsDol -> In tag [0x8C; 0x8D; 0x9F38; 0x9F49]) /\ (k' = IsTagList -> tag = 0x9F4A)).
  { intros n' k' a C. unfold case_of in C. destruct (find _ (cases e)) as [[g y]|] eqn:F; [|discriminate]. cbn [snd] in C. injection C as ->.
    apply find_some in F as [I Eq]. cbn [fst] in Eq. apply Z.eqb_eq in Eq. subst g. rewrite Forall_forall in Q. exact (Q _ I). }
  destruct X as [X1 X2]. split; split; intros G.
  - destruct (X1 (or_introl G)) as (n' & a & C). exact (proj1 (Q' _ _ _ C) G).
  - cbn [In] in G. repeat (destruct G as [<-|G]; [refine (X2 _ _ _ _ eq_refl); cbn [In]; intuition lia|]). destruct G.
  - destruct (X1 (or_intror G)) as (n' & a & C). exact (proj2 (Q' _ _ _ C) G).
  - subst tag. refine (X2 _ _ _ _ eq_refl). cbn [In]. intuition lia.
Qed.

(** ** Applications *)
Lemma comparable (p q l : list Z) : starts_with p l -> starts_with q l -> starts_with p q \/ starts_with q p.
Proof.
  intros [r ->] [r' E]. revert q r' E. induction p as [|a p IH]; intros q r' E; [left; exists q; reflexivity|].
  destruct q as [|b q]; [right; exists (a :: p); reflexivity|]. injection E as -> E. destruct (IH q r' E) as [[x ->]|[x ->]]; [left|right]; eexists; reflexivity.
Qed.
Definition names_agree (a b : list (list Z * string)) : bool :=
  forallb (fun x => forallb (fun y => negb (prefixb (fst x) (fst y) || prefixb (fst y) (fst x)) || String.eqb (snd x) (snd y)) b) a.
Lemma agree a b p s q t aid : names_agree a b = true -> In (p, s) a -> In (q, t) b -> starts_with p aid -> starts_with q aid -> s = t.
Proof.
  intros F Ia Ib Sp Sq. unfold names_agree in F. rewrite forallb_forall in F. specialize (F _ Ia). rewrite forallb_forall in F. specialize (F _ Ib). cbn [fst snd] in F.
  destruct (comparable p q aid Sp Sq) as [X|X]; apply prefixb_spec in X; rewrite X in F; rewrite ?orb_true_r in F; cbn [orb negb] in F; apply String.eqb_eq; exact F.
Qed.
Lemma aid_text_one aid s t : aid_text aid s -> aid_text aid t -> s = t.
Proof.
  intros [p a I S|p a I S N] [q b I' S'|q b I' S' N'].
  - exact (agree aid_products aid_products p a q b aid ltac:(vm_compute; reflexivity) I I' S S').
  - exfalso. exact (N' _ _ I S).
  - exfalso. exact (N _ _ I' S').
  - exact (agree aid_providers aid_providers p a q b aid ltac:(vm_compute; reflexivity) I I' S S').
Qed.
Lemma product_name n p : nth_error product_prefixes n = Some p ->
  exists s, In (p, s) aid_products /\ pick (Z.of_nat n + 1) product_names "" = s /\ s <> "" /\ nz (lit s).
Proof.
  assert (G : forallb (fun n => match nth_error product_prefixes n, nth_error aid_products n with
    | Some p, Some (q, s) => list_eqb p q && String.eqb (pick (Z.of_nat n + 1) product_names "") s && negb (String.eqb s "") && forallb (fun c => negb (c =? 0)) (lit s)
    | _, _ => false end) (seq 0 36) = true) by (vm_compute; reflexivity).
  intros E. assert (L : (n < 36)%nat) by (change 36%nat with (length product_prefixes); apply nth_error_Some; rewrite E; discriminate).
  rewrite forallb_forall in G. specialize (G n ltac:(apply in_seq; lia)). rewrite E in G.
  destruct (nth_error aid_products n) as [[q s]|] eqn:E'; [|discriminate]. rewrite !andb_true_iff in G. destruct G as [[[G1 G2] G3] G4].
  apply list_eqb_spec in G1. subst q. apply String.eqb_eq in G2. exists s. split; [eapply nth_error_In; exact E'|]. split; [exact G2|]. split; [|apply nz_check, G4].
  intros ->. discriminate.
Qed.
Lemma provider_name p s : In (p, s) schemes -> In p product_prefixes \/ p = jcb \/
  exists t, In (p, t) aid_providers /\ pick s scheme_names "" = t /\ t <> "" /\ nz (lit t).
Proof.
  intros I. assert (G : forallb (fun ps => existsb (list_eqb (fst ps)) product_prefixes || list_eqb (fst ps) jcb ||
    existsb (fun pt => list_eqb (fst ps) (fst pt) && String.eqb (pick (snd ps) scheme_names "") (snd pt) && negb (String.eqb (snd pt) "") && forallb (fun c => negb (c =? 0)) (lit (snd pt))) aid_providers)
    schemes = true) by (vm_compute; reflexivity).
  rewrite forallb_forall in G. specialize (G _ I). cbn [fst snd] in G. rewrite !orb_true_iff in G. destruct G as [[G|G]|G].
  - left. apply existsb_exists in G as (q & Iq & E). apply list_eqb_spec in E. subst q. exact Iq.
  - right; left. apply list_eqb_spec, G.
  - right; right. apply existsb_exists in G as ([q t] & Iq & E). cbn [fst snd] in E. rewrite !andb_true_iff in E. destruct E as [[[E1 E2] E3] E4].
    apply list_eqb_spec in E1. subst q. apply String.eqb_eq in E2. exists t. split; [exact Iq|]. split; [exact E2|]. split; [intros ->; discriminate|apply nz_check, E4].
Qed.
Lemma products_same q s : In (q, s) aid_products -> In q product_prefixes.
Proof. intros H. change product_prefixes with (map fst aid_products). apply in_map_iff. exists (q, s). auto. Qed.
Lemma text_scheme aid s : aid_text aid s -> exists p t, In (p, t) schemes /\ starts_with p aid.
Proof.
  assert (G : forall (l : list (list Z * string)) q, forallb (fun x => existsb (fun y => prefixb (fst y) (fst x)) schemes) l = true -> In q l -> starts_with (fst q) aid ->
    exists p t, In (p, t) schemes /\ starts_with p aid).
  { intros l q F I [r E]. rewrite forallb_forall in F. specialize (F q I). apply existsb_exists in F as ([p t] & Ip & P). cbn [fst] in P.
    apply prefixb_spec in P. destruct P as [x P]. exists p, t. split; [exact Ip|]. exists (x ++ r). rewrite E, P, app_assoc. reflexivity. }
  intros [p a I S|p a I S _]; [apply (G aid_products (p, a))|apply (G aid_providers (p, a))]; try exact I; try exact S; vm_compute; reflexivity.
Qed.
Lemma jcb_scheme aid p s : In (p, s) schemes -> starts_with p aid -> (s =? SCHEME_JCB) = true <-> starts_with jcb aid.
Proof.
  intros I S. split.
  - intros E. assert (G : forallb (fun ps => negb (snd ps =? SCHEME_JCB) || list_eqb (fst ps) jcb) schemes = true) by (vm_compute; reflexivity).
    rewrite forallb_forall in G. specialize (G _ I). cbn [fst snd] in G. rewrite E in G. cbn [negb orb] in G. apply list_eqb_spec in G. subst p. exact S.
  - intros J. assert (G : forallb (fun ps => negb (prefixb (fst ps) jcb || prefixb jcb (fst ps)) || (snd ps =? SCHEME_JCB)) schemes = true) by (vm_compute; reflexivity).
    rewrite forallb_forall in G. specialize (G _ I). cbn [fst snd] in G.
    destruct (comparable p jcb aid S J) as [X|X]; apply prefixb_spec in X; rewrite X in G; rewrite ?orb_true_r in G; exact G.
Qed.
(** What is shown for an AID. *)
Lemma aid_string_exact aid str : str <> [] ->
  (forall s, aid_text aid s -> (5 <= length aid <= 16)%nat -> ~ starts_with jcb aid -> exists new, aid_string aid str = Ret (0, new) /\ shown str new (lit s)) /\
  ((length aid < 5 \/ 16 < length aid)%nat \/ starts_with jcb aid \/ (forall s, ~ aid_text aid s) -> exists r, r <> 0 /\ aid_string aid str = Ret (r, str)).
Proof.
  intros NE. unfold aid_string. rewrite (Zlen_pos str NE).
  assert (NJ : forall p s, In (p, s) schemes -> starts_with p aid -> (5 <= length aid <= 16)%nat -> ~ starts_with jcb aid ->
    exists t new, aid_text aid t /\ aid_string aid str = Ret (0, new) /\ shown str new (lit t)).
  { intros p s I S L J. unfold aid_string. rewrite (Zlen_pos str NE). destruct (Z.eqb_spec (Zlen aid) 0) as [E|_]; [unfold Zlen in E; lia|].
    destruct ((Zlen aid <? 5) || (Zlen aid >? 16)) eqn:EL; [unfold Zlen in EL; lia|].
    destruct (aid_scheme aid p s L I S) as (prod & P & E). destruct (s =? SCHEME_JCB) eqn:EJ; [exfalso; apply J; apply (jcb_scheme aid p s I S); exact EJ|].
    rewrite E. cbn [bind Z.eqb negb].
    assert (K : exists t, aid_text aid t /\ nz (lit t) /\ t <> "" /\
      match pick prod product_names "" with "" => pick s scheme_names "" | String _ _ => pick prod product_names "" end = t).
    { destruct P as [n q Eq Sq|N].
      - destruct (product_name n q Eq) as (t & It & Et & Nt & Z). exists t. split; [exact (at_product aid q t It Sq)|]. split; [exact Z|]. split; [exact Nt|].
        rewrite Et. destruct t; [contradiction|reflexivity].
      - destruct (provider_name p s I) as [X|[->|(t & It & Et & Nt & Z)]]; [exfalso; exact (N _ X S)|contradiction|].
        exists t. split; [|auto]. refine (at_provider aid p t It S _). intros q u Iq Sq. exact (N q (products_same q u Iq) Sq). }
    destruct K as (t & At & Z & Nt & ->).
    replace (match t with "" => Ret (1, str) | String _ _ => copy_text (lit t) str end) with (copy_text (lit t) str) by (destruct t; [contradiction|reflexivity]).
    destruct (copy_text_ok (lit t) str NE) as (new & -> & _ & Sh). exists t, new. split; [exact At|]. split; [reflexivity|exact (Sh Z)]. }
  split.
  - intros s T L J. destruct (text_scheme aid s T) as (p & q & I & S). destruct (NJ p q I S L J) as (t & new & At & E & Sh).
    rewrite (aid_text_one aid s t T At). exists new. split; [|exact Sh]. unfold aid_string in E. rewrite (Zlen_pos str NE) in E. exact E.
  - intros H. destruct (Z.eqb_spec (Zlen aid) 0) as [E|E]; [exists (-1); split; [lia|reflexivity]|].
    destruct ((Zlen aid <? 5) || (Zlen aid >? 16)) eqn:EL; [exists 1; split; [lia|reflexivity]|].
    assert (L : (5 <= length aid <= 16)%nat) by (unfold Zlen in EL; lia).
    destruct (find (fun ps => prefixb (fst ps) aid) schemes) as [[p s]|] eqn:F.
    + apply find_some in F as [I P]. apply prefixb_spec in P. cbn [fst] in P. destruct (aid_scheme aid p s L I P) as (prod & _ & E').
      destruct (s =? SCHEME_JCB) eqn:EJ; [rewrite E'; cbn [bind]; exists (-1); split; [lia|reflexivity]|].
      exfalso. assert (J : ~ starts_with jcb aid) by (intros J; apply (jcb_scheme aid p s I P) in J; congruence).
      destruct (NJ p s I P L J) as (t & new & At & _). destruct H as [H|[H|H]]; [lia|contradiction|exact (H t At)].
    + rewrite aid_unknown; [cbn [bind]; exists (-1); split; [lia|reflexivity]|exact L|].
      intros p s I P. apply prefixb_spec in P. pose proof (find_none _ _ F _ I) as Q. cbn [fst] in Q. congruence.
Qed.
(** Dedicated file names. *)
Lemma df_exact v str : (length v < length str)%nat ->
  (In v env_names -> exists new, df_name_string (Octets v) str = Ret (0, new) /\ shown str new v) /\
  (length v <> 14%nat -> df_name_string (Octets v) str = aid_string v str).
Proof.
  intros L. unfold df_name_string. cbn [vlen octets]. change (length pse) with 14%nat. change (length ppse) with 14%nat.
  assert (G : nz v -> exists new, (if (length v <? length str)%nat then let* str := put str 0 v in let* str := wr str (length v) 0 in Ret (0, str) else Ret (0, str)) = Ret (0, new) /\ shown str new v).
  { intros N. destruct (Nat.ltb_spec (length v) (length str)); [|lia]. rewrite CapduProofs.put_0 by lia. cbn [bind]. unfold into.
    destruct (skipn (length v) str) as [|c r] eqn:E; [apply (f_equal (@List.length Z)) in E; rewrite skipn_length in E; cbn [length] in E; lia|].
    rewrite wr_app by reflexivity. cbn [bind]. eexists. split; [reflexivity|]. apply (f_equal (@List.length Z)) in E. rewrite skipn_length in E. cbn [length] in E.
    split; [rewrite app_length; cbn [length]; lia|]. rewrite cstring_app by exact N. rewrite firstn_all2 by lia. reflexivity. }
  split.
  - intros [<-|[<-|[]]].
    + change (length (lit "1PAY.SYS.DDF01") =? 14)%nat with true. cbn match. change (list_eqb (lit "1PAY.SYS.DDF01") pse) with true. cbn [negb bind].
      change (list_eqb (lit "1PAY.SYS.DDF01") ppse) with false. cbn [negb bind]. apply G. apply nz_lit. reflexivity.
    + change (length (lit "2PAY.SYS.DDF01") =? 14)%nat with true. cbn match. change (list_eqb (lit "2PAY.SYS.DDF01") pse) with false. cbn [negb bind].
      apply G. apply nz_lit. reflexivity.
  - intros N. destruct (Nat.eqb_spec (length v) 14); [contradiction|]. reflexivity.
Qed.

(** ** Numbers *)
Lemma info_case e tag name k a v c t : ~ In tag [0x9F66; 0x9F6D; 0x9F6E] -> case_of e tag = Some (name, k, a) ->
  tlv_get_info e tag (Octets v) (c :: t) = (let* (r, str) := run_action tag (Octets v) a (0 :: t) in Ret (r, Some name, k, str)).
Proof.
  intros N C. unfold tlv_get_info. rewrite wr_first. cbn [bind]. unfold choose. cbn [In] in N.
  destruct (Z.eqb_spec tag 0x9F66); [intuition lia|]. destruct (Z.eqb_spec tag 0x9F6D); [intuition lia|]. destruct (Z.eqb_spec tag 0x9F6E); [intuition lia|]. cbn [bind]. rewrite C. reflexivity.
Qed.
Lemma n_field e tag n : In (tag, n) numeric_fields -> n <> 0%nat /\ ~ In tag [0x9F66; 0x9F6D; 0x9F6E] /\ exists name, case_of e tag = Some (name, IsN, Value FormatN n).
Proof.
  intros I. unfold numeric_fields in I. cbn [In] in I.
  repeat (destruct I as [E|I]; [injection E as <- <-; split; [discriminate|]; split; [cbn [In]; intuition lia|eexists; reflexivity]|]). destruct I.
Qed.
Lemma number_field e tag n v c t : In (tag, n) numeric_fields -> bytes v -> v <> [] -> (length v <= (n + 1) / 2)%nat ->
  (11 <= length (c :: t)%Z)%nat -> (n < length (c :: t)%Z)%nat ->
  (bcd v -> decval v < 4294967296 ->
     exists name ds new, tlv_get_info e tag (Octets v) (c :: t) = Ret (0, Some name, IsN, new) /\ decimal (decval v) ds /\ text_in (0 :: t) new (chars ds)) /\
  (~ bcd v -> exists r name, r <> 0 /\ tlv_get_info e tag (Octets v) (c :: t) = Ret (r, Some name, IsN, 0 :: t)).
Proof.
  intros I B NE Lv L11 Ln. destruct (n_field e tag n I) as (N0 & NT & name & C). rewrite (info_case e tag name IsN _ v c t NT C). cbn [run_action value_string].
  assert (E : tlv_value_get_string FormatN n tag v (0 :: t) = get_string FormatN tag v (0 :: t)).
  { unfold tlv_value_get_string. change (length (0 :: t)%Z =? 0)%nat with false. cbn match. destruct (Nat.eqb_spec n 0); [contradiction|]. cbn [negb andb].
    destruct (Nat.ltb_spec ((n + 1) / 2) (length v)); [lia|]. cbn [length] in *. destruct (Nat.ltb_spec (S (length t)) (n + 1)); [lia|]. reflexivity. }
  rewrite E. unfold get_string. destruct (numeric_text v (0 :: t) B NE L11) as [A F]. split.
  - intros D V. destruct (A D V) as (ds & new & Dd & -> & T). cbn [bind Z.eqb negb]. exists name, ds, new. auto.
  - intros D. destruct (F D) as (r & R & ->). cbn [bind]. assert (r <> 0) by lia. destruct (Z.eqb_spec r 0); [contradiction|]. cbn [negb]. rewrite wr_first. cbn [bind].
    exists r, name. auto.
Qed.
Lemma amount_field e tag v c t : In tag binary_amounts -> bytes v -> (1 <= length v <= 4)%nat -> (11 <= length (c :: t)%Z)%nat ->
  exists name ds new, tlv_get_info e tag (Octets v) (c :: t) = Ret (0, Some name, IsB, new) /\ decimal (be v) ds /\ text_in (0 :: t) new (chars ds).
Proof.
  intros I B Lv L11. assert (C : exists name, case_of e tag = Some (name, IsB, Whole amount_get_string)).
  { unfold binary_amounts in I. cbn [In] in I. repeat (destruct I as [<-|I]; [eexists; reflexivity|]). destruct I. }
  destruct C as (name & C). rewrite (info_case e tag name IsB _ v c t) by (exact C || (unfold binary_amounts in I; cbn [In] in *; intuition lia)).
  cbn [run_action octets]. destruct (amount_text v (0 :: t) B ltac:(intros ->; cbn [length] in Lv; lia) L11) as [A _].
  destruct (A ltac:(lia)) as (ds & new & D & -> & T). cbn [bind]. exists name, ds, new. auto.
Qed.
Lemma bcd_digits v : bcd v -> digits (nibbles v).
Proof.
  induction 1 as [|b v (B & H1 & H2) _ IH]; [constructor|]. unfold nibbles. cbn [flat_map app]. unfold is_byte in B.
  constructor; [split; [apply Z.div_pos; lia|exact H1]|]. constructor; [split; [apply Z.mod_pos_bound; lia|exact H2]|]. exact IH.
Qed.
Lemma digit_field e tag n v c t : In (tag, n) digit_fields -> bcd v -> v <> [] -> (length v <= (n + 1) / 2)%nat -> hd 0 (nibbles v) <> 0 -> decval v < 4294967296 ->
  (11 <= length (c :: t)%Z)%nat -> (n < length (c :: t)%Z)%nat ->
  exists name new, tlv_get_info e tag (Octets v) (c :: t) = Ret (0, Some name, IsN, new) /\ text_in (0 :: t) new (chars (nibbles v)).
Proof.
  intros I D NE Lv H V L11 Ln. assert (I' : In (tag, n) numeric_fields).
  { unfold digit_fields in I. unfold numeric_fields. cbn [In] in *. tauto. }
  assert (B : bytes v) by (eapply Forall_impl; [|exact D]; intros x Hx; apply Hx).
  destruct (number_field e tag n v c t I' B NE Lv L11 Ln) as [A _]. destruct (A D V) as (name & ds & new & E & Dd & T).
  exists name, new. split; [exact E|]. replace (nibbles v) with ds; [exact T|]. apply (decimal_unique (decval v)); [exact Dd|].
  split; [apply bcd_digits, D|]. split; [symmetry; apply decval_number|]. split; [destruct v; [contradiction|discriminate]|]. intros X. contradiction.
Qed.

(** ** Looked up codes *)
Lemma found_shown o str : str <> [] -> (forall s, o = Some s -> no_nul s) -> exists new, found o str = Ret (0, new) /\ shown str new (named o).
Proof.
  intros NE N. destruct o as [s|]; cbn [found named].
  - destruct (copy_text_ok s str NE) as (new & E & _ & Sh). exists new. split; [exact E|]. apply Sh. exact (N s eq_refl).
  - destruct str as [|c t]; [contradiction|]. rewrite wr_first. cbn [bind]. exists (0 :: t). split; [reflexivity|]. split; [reflexivity|].
    rewrite firstn_nil. reflexivity.
Qed.
Lemma numeric_shown look v str : texts_only look -> bytes v -> str <> [] ->
  (numeric_code v -> exists new, numeric_string look v str = Ret (0, new) /\ shown str new (named (look (decval v)))) /\
  (~ numeric_code v -> exists r, r <> 0 /\ numeric_string look v str = Ret (r, str)).
Proof.
  intros T B NE. unfold numeric_string. rewrite (Zlen_pos str NE). split.
  - intros [D L]. destruct v as [|a [|b [|]]]; try discriminate L. change (Zlen [a; b] =? 0) with false. change (Zlen [a; b] =? 2) with true. cbn [negb].
    rewrite n_to_uint_bcd by (exact D || discriminate). pose proof (dec_range _ D) as R. change (100 ^ Zlen [a; b]) with 10000 in R. rewrite u32_id by lia.
    destruct (found_shown (look (decval [a; b])) str NE ltac:(intros s; apply T)) as (new & -> & Sh). eauto.
  - intros N. destruct (Z.eqb_spec (Zlen v) 0); [exists (-1); split; [lia|reflexivity]|]. destruct (Z.eqb_spec (Zlen v) 2) as [L|]; [|exists 1; split; [lia|reflexivity]]. cbn [negb].
    assert (D : ~ bcd v) by (intros D; apply N; split; [exact D|unfold Zlen in L; lia]).
    pose proof (n_to_uint_err v B ltac:(intros ->; discriminate) D) as E. destruct (format_n_to_uint v) as [r o]. cbn [fst] in E.
    exists r. split; [lia|]. destruct E as [->| ->]; reflexivity.
Qed.
Lemma letters_shown n look v str : texts_only look -> str <> [] ->
  (Zlen v = n -> 0 < n -> no_nul v -> exists new, letters_string n look v str = Ret (0, new) /\ shown str new (named (look v))) /\
  (Zlen v <> n -> exists r, r <> 0 /\ letters_string n look v str = Ret (r, str)).
Proof.
  intros T NE. unfold letters_string. rewrite (Zlen_pos str NE). split.
  - intros E P N. destruct (Z.eqb_spec (Zlen v) 0); [lia|]. destruct (Z.eqb_spec (Zlen v) n); [|contradiction]. cbn [negb]. rewrite p_s_ok by exact N. cbn [bind].
    destruct (found_shown (look v) str NE ltac:(intros s; apply T)) as (new & -> & Sh). eauto.
  - intros N. destruct (Z.eqb_spec (Zlen v) 0); [exists (-1); split; [lia|reflexivity]|]. destruct (Z.eqb_spec (Zlen v) n); [contradiction|]. exists 1. split; [lia|reflexivity].
Qed.
Lemma lower_eq c : tolower c = lower c. Proof. reflexivity. Qed.
Lemma lower_nz c : c <> 0 -> lower c <> 0.
Proof. unfold lower. destruct ((65 <=? c) && (c <=? 90)) eqn:E; lia. Qed.
Lemma language_shown e v str : texts_only (language_by e) -> str <> [] ->
  (length v = 2%nat -> no_nul v -> exists new, language_alpha2_string e v str = Ret (0, new) /\ shown str new (named (language_by e (map lower v)))) /\
  (length v <> 2%nat -> exists r, r <> 0 /\ language_alpha2_string e v str = Ret (r, str)).
Proof.
  intros T NE. unfold language_alpha2_string. rewrite (Zlen_pos str NE). split.
  - intros L N. destruct v as [|a [|b [|]]]; try discriminate L. change (Zlen [a; b] =? 0) with false. change (Zlen [a; b] =? 2) with true. cbn [negb rd nth_error bind].
    inversion_clear N as [|? ? Na N']. inversion_clear N' as [|? ? Nb _]. change (p_s [tolower a; tolower b; 0]) with (p_s ([lower a; lower b] ++ 0 :: [])).
    rewrite p_s_ok by (repeat constructor; apply lower_nz; assumption). cbn [bind map].
    destruct (found_shown (language_by e [lower a; lower b]) str NE ltac:(intros s; apply T)) as (new & -> & Sh). eauto.
  - intros N. destruct (Z.eqb_spec (Zlen v) 0); [exists (-1); split; [lia|reflexivity]|]. destruct (Z.eqb_spec (Zlen v) 2) as [X|]; [unfold Zlen in X; lia|]. exists 1. split; [lia|reflexivity].
Qed.
(** Lists of codes: [good] pairs are shown, and the first other one ends the list. *)
Lemma shown_text junk new s : length junk = 128%nat -> shown junk new s -> no_nul s ->
  exists c r, new = c :: r /\ (if negb (c =? 0) then p_s new else Ret (lit "Unknown")) = Ret (match s with [] => lit "Unknown" | _ => firstn 127 s end).
Proof.
  intros J [L C] N. rewrite J in C. destruct new as [|c r]; [rewrite J in L; discriminate|]. exists c, r. split; [reflexivity|].
  assert (P : forall buf t, cstring buf = Some t -> p_s buf = Ret t).
  { induction buf as [|x buf IH]; intros t; cbn [cstring p_s]; [discriminate|]. destruct (x =? 0); [congruence|]. destruct (cstring buf) as [u|]; [|discriminate].
    intros E. injection E as <-. rewrite (IH u eq_refl). reflexivity. }
  rewrite (P _ _ C). destruct s as [|a s].
  - rewrite firstn_nil in C. cbn [cstring] in C. destruct (Z.eqb_spec c 0) as [->|]; [reflexivity|]. destruct (cstring r); discriminate.
  - change (128 - 1)%nat with 127%nat. inversion_clear N as [|? ? Na _]. cbn [firstn] in C. cbn [cstring] in C. destruct (Z.eqb_spec c 0) as [->|]; [discriminate|]. reflexivity.
Qed.
Lemma pair_texts_good (f : list Z -> list Z -> out (Z * list Z)) (look : list Z -> option (list Z)) (good : list Z -> Prop) junk : length junk = 128%nat ->
  (forall p, length p = 2%nat -> good p -> exists new, f p junk = Ret (0, new) /\ shown junk new (named (look p))) -> texts_only look ->
  forall n v, (length v <= n)%nat -> Nat.even (length v) = true -> (forall k, (2 * k < length v)%nat -> good (firstn 2 (skipn (2 * k) v))) ->
  pair_texts f junk v = Ret (0, pairs (fun p => list_text (look p)) v).
Proof.
  intros J F T. induction n as [|n IH]; intros v L Ev G; [destruct v; [reflexivity|cbn [length] in L; lia]|].
  destruct v as [|a [|b v]]; [reflexivity|discriminate Ev|]. cbn [pair_texts pairs].
  destruct (F [a; b] eq_refl (G 0%nat ltac:(cbn [length]; lia))) as (new & -> & Sh). cbn [bind Z.eqb negb].
  assert (N : no_nul (named (look [a; b]))) by (destruct (look [a; b]) as [s|] eqn:E; [exact (T _ _ E)|constructor]).
  destruct (shown_text junk new _ J Sh N) as (c & r & -> & E). cbn [rd nth_error bind]. rewrite E. cbn [bind].
  rewrite IH; [|cbn [length] in L; lia|exact Ev|intros k Hk; specialize (G (S k) ltac:(cbn [length]; lia)); replace (2 * S k)%nat with (S (S (2 * k))) in G by lia; exact G].
  cbn [bind]. do 3 f_equal. unfold list_text, named. destruct (look [a; b]) as [[|x s]|]; reflexivity.
Qed.
Lemma pair_texts_bad (f : list Z -> list Z -> out (Z * list Z)) (look : list Z -> option (list Z)) (good : list Z -> Prop) junk : length junk = 128%nat ->
  (forall p, length p = 2%nat -> good p -> exists new, f p junk = Ret (0, new) /\ shown junk new (named (look p))) -> texts_only look ->
  forall pre a b post, (exists r, r <> 0 /\ f [a; b] junk = Ret (r, junk)) -> Nat.even (length pre) = true ->
  (forall k, (2 * k < length pre)%nat -> good (firstn 2 (skipn (2 * k) pre))) ->
  exists r, r <> 0 /\ pair_texts f junk (pre ++ a :: b :: post) = Ret (r, pairs (fun p => list_text (look p)) pre).
Proof.
  intros J F T pre a b post (r & R & Ef). assert (G0 : forall n pre, (length pre <= n)%nat -> Nat.even (length pre) = true ->
    (forall k, (2 * k < length pre)%nat -> good (firstn 2 (skipn (2 * k) pre))) -> pair_texts f junk (pre ++ a :: b :: post) = Ret (r, pairs (fun p => list_text (look p)) pre)).
  { induction n as [|n IH]; intros v L Ev G.
    - destruct v; [|cbn [length] in L; lia]. cbn [app pair_texts pairs]. rewrite Ef. cbn [bind]. destruct (Z.eqb_spec r 0); [contradiction|]. reflexivity.
    - destruct v as [|x [|y v]]; [cbn [app pair_texts pairs]; rewrite Ef; cbn [bind]; destruct (Z.eqb_spec r 0); [contradiction|]; reflexivity|discriminate Ev|].
      cbn [app pair_texts pairs]. destruct (F [x; y] eq_refl (G 0%nat ltac:(cbn [length]; lia))) as (new & -> & Sh). cbn [bind Z.eqb negb].
      assert (N : no_nul (named (look [x; y]))) by (destruct (look [x; y]) as [s|] eqn:E; [exact (T _ _ E)|constructor]).
      destruct (shown_text junk new _ J Sh N) as (c & rr & -> & E). cbn [rd nth_error bind]. rewrite E. cbn [bind].
      rewrite IH; [|cbn [length] in L; lia|exact Ev|intros k Hk; specialize (G (S k) ltac:(cbn [length]; lia)); replace (2 * S k)%nat with (S (S (2 * k))) in G by lia; exact G].
      cbn [bind]. do 3 f_equal. unfold list_text, named. destruct (look [x; y]) as [[|z s]|]; reflexivity. }
  intros Ev G. exists r. split; [exact R|]. exact (G0 (length pre) pre (le_n _) Ev G).
Qed.
Lemma pairs_full (look : list Z -> option (list Z)) v : full (pairs (fun p => list_text (look p)) v).
Proof.
  assert (G : forall n v, (length v <= n)%nat -> full (pairs (fun p => list_text (look p)) v)).
  { induction n as [|n IH]; intros u L; [destruct u; [constructor|cbn [length] in L; lia]|].
    destruct u as [|a [|b u]]; [constructor|constructor|]. cbn [pairs]. constructor; [|apply IH; cbn [length] in L; lia].
    unfold list_text. destruct (look [a; b]) as [[|c s]|]; discriminate. }
  exact (G (length v) v (le_n _)).
Qed.
Lemma even_land n : Nat.even n = true -> Z.land (Z.of_nat n) 1 = 0.
Proof. intros H. change 1 with (Z.ones 1). rewrite Z.land_ones by lia. change (2 ^ 1) with 2. apply Nat.even_spec in H as [m ->]. rewrite Nat2Z.inj_mul, Z.mul_comm. apply Z.mod_mul. lia. Qed.
Lemma sub_pair (P : Z -> Prop) v k : Forall P v -> Forall P (firstn 2 (skipn k v)).
Proof. intros H. rewrite <- (firstn_skipn k v) in H. apply Forall_app in H as [_ H]. rewrite <- (firstn_skipn 2 (skipn k v)) in H. apply Forall_app in H. apply H. Qed.
Lemma currency_list_shown e str : texts_only (currency_by e) -> length (j_text e) = 128%nat -> str <> [] ->
  let text p := list_text (currency_by e (decval p)) in
  (forall v, v <> [] -> Nat.even (length v) = true -> bcd v -> exists new, currency_list e v str = Ret (0, new) /\ in_lines str new (pairs text v)) /\
  (forall v a b w, bytes [a; b] -> Nat.even (length (v ++ a :: b :: w)) = true -> Nat.even (length v) = true -> bcd v -> ~ bcd [a; b] ->
     exists r new, r <> 0 /\ currency_list e (v ++ a :: b :: w) str = Ret (r, new) /\ in_lines str new (pairs text v)) /\
  (forall v, v = [] \/ Nat.even (length v) = false -> exists r, r <> 0 /\ currency_list e v str = Ret (r, str)).
Proof.
  intros T J NE. cbv zeta. unfold currency_list, pair_list. rewrite (Zlen_pos str NE).
  assert (NJ : j_text e <> []) by (intros X; rewrite X in J; discriminate).
  assert (F : forall p, length p = 2%nat -> bcd p -> exists new, currency_numeric_string e p (j_text e) = Ret (0, new) /\ shown (j_text e) new (named (currency_by e (decval p)))).
  { intros p L D. apply numeric_shown; [exact T|eapply Forall_impl; [|exact D]; intros x Hx; apply Hx|exact NJ|]. split; assumption. }
  assert (T' : texts_only (fun p => currency_by e (decval p))) by (intros p s; apply T).
  split; [|split].
  - intros v Nv Ev D. rewrite (Zlen_pos v Nv). cbn [orb]. unfold Zlen. rewrite (even_land _ Ev). cbn [Z.eqb negb].
    rewrite (pair_texts_good _ (fun p => currency_by e (decval p)) bcd _ J F T' (length v) v (le_n _) Ev ltac:(intros k _; apply sub_pair, D)). cbn [bind].
    apply emit_listed, pairs_full.
  - intros v a b w Bab Ev Ev' D N. rewrite (Zlen_pos (v ++ a :: b :: w)) by (intros X; apply app_eq_nil in X as [_ X]; discriminate). cbn [orb]. unfold Zlen. rewrite (even_land _ Ev). cbn [Z.eqb negb].
    destruct (pair_texts_bad _ (fun p => currency_by e (decval p)) bcd _ J F T' v a b w) as (r & R & E); [|exact Ev'|intros k _; apply sub_pair, D|].
    + destruct (numeric_shown (currency_by e) [a; b] (j_text e) T Bab NJ) as [_ Q]. apply Q. intros [X _]. contradiction.
    + rewrite E. cbn [bind]. destruct (emit_listed r (pairs (fun p => list_text (currency_by e (decval p))) v) str (pairs_full _ v)) as (new & En & I). exists r, new. auto.
  - intros v [->|Od]; [exists (-1); split; [lia|reflexivity]|]. destruct (Z.eqb_spec (Zlen v) 0); cbn [orb]; [exists (-1); split; [lia|reflexivity]|].
    assert (X : Z.land (Zlen v) 1 =? 0 = false).
    { apply Z.eqb_neq. change 1 with (Z.ones 1). rewrite Z.land_ones by lia. change (2 ^ 1) with 2. unfold Zlen. intros X.
      assert (Y : Nat.even (length v) = true); [|congruence]. apply Nat.even_spec. exists (Z.to_nat (Z.of_nat (length v) / 2)). pose proof (Z.div_mod (Z.of_nat (length v)) 2 ltac:(lia)).
      pose proof (Z.div_pos (Z.of_nat (length v)) 2 ltac:(lia) ltac:(lia)). lia. }
    rewrite X. cbn [negb]. exists 1. split; [lia|reflexivity].
Qed.
Lemma language_list_shown e str : texts_only (language_by e) -> length (j_text e) = 128%nat -> str <> [] ->
  let text p := list_text (language_by e (map lower p)) in
  forall v, v <> [] -> Nat.even (length v) = true -> no_nul v -> exists new, language_list e v str = Ret (0, new) /\ in_lines str new (pairs text v).
Proof.
  intros T J NE. cbv zeta. unfold language_list, pair_list. rewrite (Zlen_pos str NE).
  assert (NJ : j_text e <> []) by (intros X; rewrite X in J; discriminate).
  assert (F : forall p, length p = 2%nat -> no_nul p -> exists new, language_alpha2_string e p (j_text e) = Ret (0, new) /\ shown (j_text e) new (named (language_by e (map lower p)))).
  { intros p L D. apply language_shown; assumption. }
  intros v Nv Ev D. rewrite (Zlen_pos v Nv). cbn [orb]. unfold Zlen. rewrite (even_land _ Ev). cbn [Z.eqb negb].
  rewrite (pair_texts_good _ (fun p => language_by e (map lower p)) no_nul _ J F (fun p s => T _ s) (length v) v (le_n _) Ev ltac:(intros k _; apply sub_pair, D)). cbn [bind].
  apply emit_listed, pairs_full.
Qed.

(** The fields with codes. *)
Lemma info_numeric e v c t : bytes v ->
  let text tag o := (numeric_code v -> exists name new, tlv_get_info e tag (Octets v) (c :: t) = Ret (0, Some name, IsN, new) /\ shown (0 :: t) new (named o)) /\
                    (~ numeric_code v -> exists r name, r <> 0 /\ tlv_get_info e tag (Octets v) (c :: t) = Ret (r, Some name, IsN, 0 :: t)) in
  (texts_only (by_numeric e) -> forall tag, In tag country_tags -> text tag (by_numeric e (decval v))) /\
  (texts_only (currency_by e) -> forall tag, In tag currency_tags -> text tag (currency_by e (decval v))) /\
  (texts_only (mcc_by e) -> text 0x9F15 (mcc_by e (decval v))).
Proof.
  intros B. cbv zeta.
  assert (G : forall look tag name, texts_only look -> ~ In tag [0x9F66; 0x9F6D; 0x9F6E] -> case_of e tag = Some (name, IsN, Whole (numeric_string look)) ->
    (numeric_code v -> exists name new, tlv_get_info e tag (Octets v) (c :: t) = Ret (0, Some name, IsN, new) /\ shown (0 :: t) new (named (look (decval v)))) /\
    (~ numeric_code v -> exists r name, r <> 0 /\ tlv_get_info e tag (Octets v) (c :: t) = Ret (r, Some name, IsN, 0 :: t))).
  { intros look tag name T N C. rewrite (info_case e tag name IsN _ v c t N C). cbn [run_action octets].
    destruct (numeric_shown look v (0 :: t) T B ltac:(discriminate)) as [X Y]. split.
    - intros Nc. destruct (X Nc) as (new & -> & Sh). cbn [bind]. eauto.
    - intros Nc. destruct (Y Nc) as (r & R & ->). cbn [bind]. eauto. }
  split; [|split].
  - intros T tag I. unfold country_tags in I. cbn [In] in I.
    repeat (destruct I as [<-|I]; [eapply (G (by_numeric e)); [exact T|cbn [In]; intuition lia|reflexivity]|]). destruct I.
  - intros T tag I. unfold currency_tags in I. cbn [In] in I.
    repeat (destruct I as [<-|I]; [eapply (G (currency_by e)); [exact T|cbn [In]; intuition lia|reflexivity]|]). destruct I.
  - intros T. eapply (G (mcc_by e)); [exact T|cbn [In]; intuition lia|reflexivity].
Qed.
(** Country codes of letters: the country if it is known, else the letters. *)
Lemma info_letters e tag n v c t : (tag = 0x5F55 /\ n = 2%nat \/ tag = 0x5F56 /\ n = 3%nat) -> texts_only (by_alpha2 e) -> texts_only (by_alpha3 e) ->
  length v = n -> Forall letter v -> (n < length (c :: t)%Z)%nat ->
  exists name new, tlv_get_info e tag (Octets v) (c :: t) = Ret (0, Some name, IsA, new) /\
    let found := if tag =? 0x5F55 then by_alpha2 e v else by_alpha3 e v in
    shown (0 :: t) new (match named found with [] => v | s => s end).
Proof.
  intros Ht T2 T3 L Lv Lt. assert (N : no_nul v) by (eapply Forall_impl; [|exact Lv]; intros x [H|H]; lia).
  assert (NE : v <> []) by (intros ->; cbn [length] in L; lia).
  assert (K : forall look name, texts_only look -> case_of e tag = Some (name, IsA, CountryOr (letters_string (Z.of_nat n) look) n) ->
    exists name new, tlv_get_info e tag (Octets v) (c :: t) = Ret (0, Some name, IsA, new) /\ shown (0 :: t) new (match named (look v) with [] => v | s => s end)).
  { intros look name T C. rewrite (info_case e tag name IsA _ v c t) by (exact C || (cbn [In]; intuition lia)). cbn [run_action octets].
    destruct (letters_shown (Z.of_nat n) look v (0 :: t) T ltac:(discriminate)) as [A _]. destruct (A ltac:(unfold Zlen; lia) ltac:(lia) N) as (new & -> & Sh). cbn [bind Z.eqb negb orb].
    destruct Sh as [Ln Cs]. destruct new as [|x new]; [discriminate Ln|]. destruct (named (look v)) as [|s0 s] eqn:En.
    - rewrite firstn_nil in Cs. cbn [cstring] in Cs. destruct (Z.eqb_spec x 0) as [->|]; [|destruct (cstring new); discriminate].
      cbn [value_string]. unfold tlv_value_get_string. change (length (0 :: new)%Z =? 0)%nat with false. cbn match.
      destruct (Nat.eqb_spec n 0); [lia|]. cbn [negb andb]. destruct (Nat.ltb_spec n (length v)); [lia|]. cbn [length] in Ln, Lt |- *. destruct (Nat.ltb_spec (S (length new)) (n + 1)); [lia|].
      unfold get_string, format_a_get_string. destruct (text_cases is_alpha v (0 :: new)) as (_ & _ & C3 & _).
      destruct (C3 NE ltac:(cbn [length]; lia)) as (new' & -> & Ti).
      { apply forallb_forall. intros y Iy. rewrite Forall_forall in Lv. destruct (Lv y Iy) as [Hy|Hy]; unfold is_alpha; lia. }
      cbn [bind Z.eqb negb]. exists name, new'. split; [reflexivity|]. destruct Ti as [Li ->]. split.
      + rewrite app_length. cbn [length] in *. rewrite skipn_length. cbn [length]. lia.
      + rewrite cstring_app by exact N. cbn [length] in *. rewrite firstn_all2 by lia. reflexivity.
    - assert (Nx : (x =? 0) = false).
      { apply Z.eqb_neq. intros ->. cbn [cstring Z.eqb] in Cs. injection Cs as Cs. destruct t; [cbn [length] in Lt; lia|]. cbn [length Nat.sub firstn] in Cs. discriminate. }
      rewrite Nx. cbn [bind]. exists name, (x :: new). split; [reflexivity|]. split; [exact Ln|exact Cs]. }
  destruct Ht as [[-> ->]|[-> ->]]; cbn [Z.eqb Pos.eqb].
  - eapply (K (by_alpha2 e)); [exact T2|reflexivity].
  - eapply (K (by_alpha3 e)); [exact T3|reflexivity].
Qed.
