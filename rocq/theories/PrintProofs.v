(** Proofs about what is printed. *)
From Coq Require Import String.
From Verif Require Import Base BaseLemmas BerModel BerSpec BerProofs TlvModel TlvListModel TlvSpec TlvProofs StrModel StrSpec StrProofs CapduModel CapduSpec CapduProofs
  FlagsModel FlagsSpec FlagsProofs FlagsTexts FieldsSpec DolModel DolSpec DolProofs InfoModel InfoSpec InfoProofs InfoTexts InfoProps ToolsModel ToolsProofs PrintModel PrintSpec.
Open Scope string_scope.
Open Scope Z_scope.
Open Scope list_scope.
Notation length := List.length.

(** ** Numbers *)
Lemma p_X_step k v b : 1 <= v -> is_byte b -> p_X_n (Datatypes.S (Datatypes.S k)) (v * 256 + b) = p_X_n k v ++ p_02X b.
Proof.
  intros Hv Hb. unfold is_byte in Hb. cbn [p_X_n]. destruct (Z.ltb_spec (v * 256 + b) 16); [lia|].
  assert (E : (v * 256 + b) / 16 = v * 16 + b / 16) by (replace (v * 256 + b) with ((v * 16) * 16 + b) by lia; rewrite Z.div_add_l by lia; reflexivity).
  rewrite E. assert (B16 : 0 <= b / 16 < 16) by (split; [apply Z.div_pos|apply Z.div_lt_upper_bound]; lia). destruct (Z.ltb_spec (v * 16 + b / 16) 16); [lia|]. unfold p_02X.
  replace ((v * 16 + b / 16) / 16) with v by (rewrite Z.div_add_l by lia; rewrite Z.div_small by lia; lia).
  replace ((v * 16 + b / 16) mod 16) with (b / 16) by (rewrite Z.add_comm, Z.mod_add by lia; rewrite Z.mod_small by lia; reflexivity).
  replace ((v * 256 + b) mod 16) with (b mod 16) by (replace (v * 256 + b) with (b + (v * 16) * 16) by lia; rewrite Z.mod_add by lia; reflexivity).
  rewrite <- app_assoc. reflexivity.
Qed.
Lemma p_X_one b : is_byte b -> p_X2 b = p_02X b.
Proof.
  assert (G : forallb (fun k => let b := Z.of_nat k in FlagsProofs.ll_eqb [p_X2 b] [p_02X b]) (seq 0 256) = true) by (vm_compute; reflexivity).
  intros H. unfold is_byte in H. rewrite forallb_forall in G. specialize (G (Z.to_nat b) ltac:(apply in_seq; lia)). cbv zeta in G. rewrite Z2Nat.id in G by lia. apply FlagsProofs.ll_eqb_eq in G. congruence.
Qed.
Lemma p_X_two k b : 16 <= b < 256 -> p_X_n (Datatypes.S (Datatypes.S k)) b = p_02X b.
Proof.
  intros H. cbn [p_X_n]. destruct (Z.ltb_spec b 16); [lia|]. assert (b / 16 < 16) by (apply Z.div_lt_upper_bound; lia). destruct (Z.ltb_spec (b / 16) 16); [|lia]. reflexivity.
Qed.
Lemma tag_hex id : identifier id -> p_X2 (be id) = hex_text id.
Proof.
  intros H. rewrite <- hex_02X by (apply identifier_bytes, H). destruct H as [b Hb H|b0 more last Hb0 H31 Hm Hl Hlen].
  - change (be [b]) with b. rewrite p_X_one by exact Hb. cbn [flat_map]. now rewrite app_nil_r.
  - assert (L : is_byte last) by (unfold is_byte; lia). pose proof (Z.mod_le b0 32 ltac:(unfold is_byte in Hb0; lia) ltac:(lia)) as B. unfold is_byte in Hb0.
    destruct more as [|m1 [|m2 [|]]]; [| | |cbn [length] in Hlen; lia]; unfold p_X2, p_X.
    + change (be (b0 :: [] ++ [last])) with (b0 * 256 + last). unfold is_byte in L. destruct (Z.ltb_spec (b0 * 256 + last) 16); [lia|].
      rewrite p_X_step by (unfold is_byte; lia). rewrite p_X_two by lia. cbn [flat_map app]. now rewrite app_nil_r.
    + apply Forall_inv in Hm. change (be (b0 :: [m1] ++ [last])) with ((b0 * 256 + m1) * 256 + last). unfold is_byte in L. destruct (Z.ltb_spec ((b0 * 256 + m1) * 256 + last) 16); [lia|].
      rewrite p_X_step by (unfold is_byte; lia). rewrite p_X_step by (unfold is_byte; lia). rewrite p_X_two by lia. cbn [flat_map app]. now rewrite app_nil_r.
    + pose proof (Forall_inv Hm) as M1. apply Forall_inv_tail, Forall_inv in Hm. change (be (b0 :: [m1; m2] ++ [last])) with (((b0 * 256 + m1) * 256 + m2) * 256 + last). unfold is_byte in L. cbv beta in *.
      destruct (Z.ltb_spec (((b0 * 256 + m1) * 256 + m2) * 256 + last) 16); [lia|].
      rewrite p_X_step by (unfold is_byte; lia). rewrite p_X_step by (unfold is_byte; lia). rewrite p_X_step by (unfold is_byte; lia). rewrite p_X_two by lia. cbn [flat_map app]. now rewrite app_nil_r.
Qed.
Lemma titled_ok id n : identifier id -> tag_name (be id) n = titled id n.
Proof. intros H. unfold tag_name, titled. now rewrite tag_hex. Qed.
Lemma bracketed_ok n : 0 <= n < 4294967296 -> lit "[" ++ p_dec n ++ lit "]" = bracketed n.
Proof. intros H. unfold bracketed. rewrite p_dec_text by lia. reflexivity. Qed.
Lemma spaced_ok v : bytes v -> flat_map (fun b => 32 :: p_02X b) v = spaced v.
Proof.
  intros B. unfold spaced. induction v as [|b v IH]; [reflexivity|]. inversion B as [|? ? Hb Hv]; subst. cbn [flat_map]. rewrite (IH Hv). rewrite hex2_02X by exact Hb. reflexivity.
Qed.
Lemma be_84 id : identifier id -> be id = 0x84 -> id = [0x84].
Proof.
  intros H E. destruct H as [b Hb H|b0 more last Hb0 H31 Hm Hl Hlen]; [cbn in E; now subst|]. exfalso.
  rewrite be_cons in E. pose proof (Z.mod_le b0 32 ltac:(unfold is_byte in Hb0; lia) ltac:(lia)) as B0.
  assert (B : bytes (more ++ [last])). { apply bytes_app_intro; [eapply Forall_impl; [|exact Hm]; unfold is_byte; cbn; lia|repeat constructor; unfold is_byte; lia]. }
  pose proof (be_range _ B) as [R _]. assert (Q : 256 ^ 1 <= 256 ^ Zlen (more ++ [last])) by (apply Z.pow_le_mono_r; [lia|]; unfold Zlen; rewrite app_length; cbn [length]; lia). nia.
Qed.

(** ** Lists *)
Lemma entry_ok e tag n : ~ (tag = 0x84 /\ n = 14%nat) -> exists r name k, tlv_get_info e tag (Null n) [] = Ret (r, name, k, []) /\ has_entry_name tag n name.
Proof.
  intros H. destruct (C106_entries_partial e tag n) as (_ & A). destruct (A H) as (r & name & k & E). exists r, name, k. split; [exact E|]. exact (C105_entries e tag n r name k E).
Qed.
Lemma dol_lines_run e prefix d fuel : forall buf, bytes buf -> (length buf < fuel)%nat ->
  (dol_lines e fuel buf prefix d = UB /\ df_name_entry buf) \/ exists l, dol_lines e fuel buf prefix d = Ret l /\ dol_lines_of prefix d buf l.
Proof.
  induction fuel as [|fuel IH]; intros buf B L; [lia|]. cbn [dol_lines]. destruct (dol_itr_step buf B) as (r & en & itr' & E & H). rewrite E. cbn [bind].
  destruct H as [(H1 & -> & _)|(id & n & -> & Hid & Hn & -> & ->)].
  - destruct (Z.leb_spec r 0); [|lia]. right. exists []. split; [reflexivity|]. apply dl_end. intros id n rest Hid ->. rewrite dol_itr_next_cons in E by exact Hid. injection E as <- _ _. pose proof (Zlen_nonneg id). lia.
  - pose proof (identifier_length _ Hid). destruct (Z.leb_spec (Zlen id + 1) 0); [unfold Zlen in *; lia|].
    assert (N14 : (be id = 0x84 /\ Z.to_nat n = 14%nat) \/ ~ (be id = 0x84 /\ Z.to_nat n = 14%nat)) by (destruct (Z.eq_dec (be id) 0x84), (Nat.eq_dec (Z.to_nat n) 14); tauto).
    apply bytes_app in B as (_ & B). apply Forall_inv_tail in B. rewrite app_length in L. cbn [length] in L.
    destruct N14 as [N14|N14].
    + destruct (C106_entries_partial e (be id) (Z.to_nat n)) as (A & _). rewrite (A N14). cbn [bind]. left. split; [reflexivity|]. destruct N14 as (E84 & E14).
      exists [], [], itr'. split; [constructor|]. rewrite (be_84 id Hid E84). replace n with 14 by (unfold is_byte in Hn; lia). reflexivity.
    + destruct (entry_ok e (be id) (Z.to_nat n) N14) as (r & name & k & -> & HN). cbn [bind].
      destruct (IH itr' B ltac:(lia)) as [(-> & (bf & es & af & Hd & ->))|(l & -> & Hl)]; cbn [bind].
      * left. split; [reflexivity|]. exists (id ++ n :: bf), ((be id, n) :: es), af. split; [constructor; auto|]. now rewrite <- app_assoc.
      * right. eexists. split; [reflexivity|]. pose proof (dl_entry prefix d id n name itr' l Hid Hn HN Hl) as Q. unfold line_at in Q. rewrite titled_ok by exact Hid. unfold is_byte in Hn.
        rewrite <- bracketed_ok in Q by lia. unfold newline. unfold indent. unfold nl in Q. change (lit " [") with (lit " " ++ lit "["). rewrite <- !app_assoc in *. exact Q.
Qed.
Lemma dol_lines_stray e prefix d before es : dol before es -> forall fuel after, (length (before ++ 0x84 :: 14 :: after)%Z < fuel)%nat ->
  dol_lines e fuel (before ++ 0x84 :: 14 :: after) prefix d = UB.
Proof.
  induction 1 as [|id n rest es Hid Hn H IH]; intros fuel after L; (destruct fuel as [|fuel]; [lia|]); cbn [dol_lines].
  - assert (I : identifier [0x84]) by (constructor; [unfold is_byte; lia|discriminate]). pose proof (dol_itr_next_cons [0x84] 14 after I) as Q. cbn [app] in Q |- *. rewrite Q. cbn [bind].
    change (Zlen [132] + 1 <=? 0) with false. cbn iota. destruct (C106_entries_partial e (be [0x84]) (Z.to_nat 14)) as (A & _). rewrite A by (split; reflexivity). reflexivity.
  - rewrite <- app_assoc in *. cbn [app] in *. rewrite dol_itr_next_cons by exact Hid. cbn [bind]. pose proof (Zlen_nonneg id). destruct (Z.leb_spec (Zlen id + 1) 0); [lia|].
    destruct (tlv_get_info e (be id) (Null (Z.to_nat n)) []) as [[[[r name] k] new]| |] eqn:E; cbn [bind]; [|reflexivity|].
    + rewrite IH; [reflexivity|]. rewrite app_length in L. cbn [length] in L. lia.
    + exfalso. destruct (C106_entries_partial e (be id) (Z.to_nat n)) as (A1 & A2). destruct (Z.eq_dec (be id) 0x84), (Nat.eq_dec (Z.to_nat n) 14);
        try (destruct A2 as (? & ? & ? & A2); [tauto|congruence]). rewrite A1 in E by auto. discriminate.
Qed.
Lemma dol_print e buf prefix d : bytes buf ->
  (df_name_entry buf -> print_emv_dol e buf prefix d = UB) /\ (~ df_name_entry buf -> exists txt, print_emv_dol e buf prefix d = Ret txt /\ dol_text prefix d buf txt).
Proof.
  intros B. unfold print_emv_dol. split.
  - intros (bf & es & af & Hd & ->). rewrite (dol_lines_stray e prefix _ bf es Hd) by lia. reflexivity.
  - intros N. destruct (dol_lines_run e prefix (Datatypes.S d) (Datatypes.S (length buf)) buf B ltac:(lia)) as [(_ & X)|(l & -> & Hl)]; [contradiction|]. cbn [bind]. eexists. split; [reflexivity|].
    exists l. split; [exact Hl|]. unfold line_at, indent, newline, nl. rewrite <- !app_assoc. reflexivity.
Qed.

Lemma sub_after (id rest : list Z) : sub (id ++ rest) (length id) (length (id ++ rest) - length id) = Ret rest.
Proof. rewrite sub_Ret by (rewrite app_length; lia). rewrite skipn_length_app. rewrite firstn_all2; [reflexivity|]. rewrite app_length. lia. Qed.
Lemma tag_lines_run e prefix d fuel : forall buf, bytes buf -> (length buf < fuel)%nat ->
  exists l, tag_lines e fuel buf prefix d = Ret l /\ tag_lines_of prefix d buf l.
Proof.
  induction fuel as [|fuel IH]; intros buf B L; [lia|]. cbn [tag_lines]. destruct (tag_decode_total buf B) as (r & t & E & H). rewrite E. cbn [bind].
  destruct (Z.leb_spec r 0) as [R|R].
  - exists []. split; [reflexivity|]. apply tg_end. intros id rest Hid ->. rewrite tag_decode_complete in E by exact Hid. injection E as <- _. pose proof (identifier_length _ Hid). unfold Zlen in *. lia.
  - destruct (tag_decode_sound buf r t B E R) as (id & rest & -> & Hid & -> & ->). pose proof (identifier_length _ Hid).
    destruct (entry_ok e (be id) 0 ltac:(lia)) as (r & name & k & -> & HN). cbn [bind]. replace (Z.to_nat (Zlen id)) with (length id) by (unfold Zlen; lia). rewrite sub_after. cbn [bind].
    apply bytes_app in B as (_ & B). destruct (IH rest B) as (l & -> & Hl); [rewrite app_length in L; lia|]. cbn [bind]. eexists. split; [reflexivity|].
    pose proof (tg_entry prefix d id name rest l Hid HN Hl) as Q. unfold line_at in Q. rewrite titled_ok by exact Hid. unfold newline, indent. unfold nl in Q. rewrite <- !app_assoc in *. exact Q.
Qed.
Lemma tag_list_print e buf prefix d : bytes buf -> exists txt, print_emv_tag_list e buf prefix d = Ret txt /\ tag_list_text prefix d buf txt.
Proof.
  intros B. unfold print_emv_tag_list. destruct (tag_lines_run e prefix (Datatypes.S d) (Datatypes.S (length buf)) buf B ltac:(lia)) as (l & -> & Hl). cbn [bind]. eexists. split; [reflexivity|].
  exists l. split; [exact Hl|]. unfold line_at, indent, newline, nl. rewrite <- !app_assoc. reflexivity.
Qed.

(** ** Descriptions *)
Lemma tokens_line t rest : ~ In 10 t -> forall cur, tokens cur (t ++ 10 :: rest) = token (cur ++ t) ++ tokens [] rest.
Proof.
  induction t as [|c t IH]; intros N cur; cbn [app tokens].
  - rewrite app_nil_r. reflexivity.
  - destruct (Z.eqb_spec c 10) as [->|_]; [exfalso; apply N; left; reflexivity|]. rewrite IH by (intros I; apply N; right; exact I). rewrite <- app_assoc. reflexivity.
Qed.
Lemma tokens_lines ts : Forall (fun t => ~ In 10 t) ts -> tokens [] (lines ts) = filter some_text ts.
Proof.
  induction 1 as [|t ts N F IH]; [reflexivity|]. unfold lines. cbn [flat_map]. fold (lines ts). rewrite <- app_assoc. cbn [app]. rewrite tokens_line by exact N. cbn [app filter].
  rewrite IH. destruct t; reflexivity.
Qed.
Lemma lines_split s : s <> [] -> last s 0 = 10 -> exists ts, ts <> [] /\ Forall (fun t => ~ In 10 t) ts /\ s = lines ts.
Proof.
  induction s as [|c s IH]; intros N L; [contradiction|]. destruct s as [|c' s].
  - cbn in L. subst c. exists [[]]. split; [discriminate|]. split; [repeat constructor; auto|reflexivity].
  - change (last (c :: c' :: s) 0) with (last (c' :: s) 0) in L. destruct (IH ltac:(discriminate) L) as (ts & Nt & F & E). destruct (Z.eq_dec c 10) as [->|Nc].
    + exists ([] :: ts). split; [discriminate|]. split; [constructor; auto|]. rewrite E. reflexivity.
    + destruct ts as [|t ts]; [contradiction|]. exists ((c :: t) :: ts). split; [discriminate|]. split.
      * inversion F as [|? ? F1 F2]; subst. constructor; [|exact F2]. intros [I|I]; [congruence|contradiction].
      * rewrite E. reflexivity.
Qed.
Lemma last_lines ts : ts <> [] -> last (lines ts) 0 = 10.
Proof.
  intros N. destruct (exists_last N) as (a & t & ->). unfold lines. rewrite flat_map_app. cbn [flat_map]. rewrite app_nil_r, app_assoc. apply last_last.
Qed.
Lemma lines_some ts : ts <> [] -> lines ts <> [].
Proof. intros N E. pose proof (last_lines ts N) as L. rewrite E in L. discriminate. Qed.
Lemma print_lines ts prefix d : Forall (fun t => ~ In 10 t) ts ->
  print_str_list (lines ts) prefix d = flat_map (fun t => line_at prefix d (lit "- " ++ t)) (filter some_text ts).
Proof. intros F. unfold print_str_list. rewrite tokens_lines by exact F. apply flat_map_ext. intros t. unfold line_at, indent, newline, nl. rewrite <- !app_assoc. reflexivity. Qed.

(** ** Fields *)
Lemma p_s_cstring b : forall s, cstring b = Some s -> p_s b = Ret s.
Proof.
  induction b as [|c b IH]; intros s H; [discriminate|]. cbn [cstring] in H. cbn [p_s]. destruct (c =? 0); [now injection H as <-|]. destruct (cstring b) as [t|]; [|discriminate]. injection H as <-. rewrite (IH t eq_refl). reflexivity.
Qed.
Lemma list_empty e tag v str r n k new : str <> [] -> tlv_get_info e tag (Octets v) str = Ret (r, n, k, new) -> In k [IsDol; IsTagList] -> cstring new = Some [].
Proof.
  intros NE E I. destruct (C105_lists _ _ _ _ _ _ _ _ E) as (A & B). destruct str as [|c t]; [contradiction|].
  assert (T : In tag [0x8C; 0x8D; 0x9F38; 0x9F49; 0x9F4A]) by (cbn [In] in I; destruct I as [<-|[<-|[]]]; [apply proj1 in A; specialize (A eq_refl); cbn [In] in *; tauto|apply proj1 in B; specialize (B eq_refl); cbn [In]; subst tag; tauto]).
  cbn [In] in T. clear A B I.
  repeat (destruct T as [<-|T]; [match goal with H : tlv_get_info ?e ?t _ _ = _ |- _ => rewrite (info_case e t _ _ _ v c t0 ltac:(cbn [In]; intuition lia) eq_refl) in H || rewrite (info_case e t _ _ _ v c _ ltac:(cbn [In]; intuition lia) eq_refl) in H end; cbn [run_action bind] in E; injection E as _ _ _ <-; reflexivity|]).
  contradiction.
Qed.
Definition describes (e : env) (junk : list Z) : describer :=
  fun tag v k s => exists r n new, tlv_get_info e tag (Octets v) junk = Ret (r, n, k, new) /\ cstring new = Some s.
Definition dol_tag (tag : Z) : Prop := In tag [0x8C; 0x8D; 0x9F38; 0x9F49].

Lemma value_print e prefix d tag v junk r n k new s : junk <> [] -> bytes v -> tlv_get_info e tag (Octets v) junk = Ret (r, n, k, new) -> cstring new = Some s ->
  (field_value e prefix d v k new = UB /\ dol_tag tag /\ df_name_entry v) \/
  (~ (dol_tag tag /\ df_name_entry v) /\ exists desc, field_value e prefix d v k new = Ret (spaced v ++ desc) /\ description prefix d v k s desc).
Proof.
  intros NE B E C. unfold field_value. rewrite (p_s_cstring _ _ C). cbn [bind]. rewrite spaced_ok by exact B.
  destruct (C105_lists _ _ _ _ _ _ _ _ E) as (KD & KT). fold (dol_tag tag) in KD.
  assert (KS : In k [IsDol; IsTagList] -> s = []) by (intros I; pose proof (list_empty _ _ _ _ _ _ _ _ NE E I); congruence).
  assert (ND : k <> IsDol -> ~ (dol_tag tag /\ df_name_entry v)) by tauto.
  assert (P1 : ~ In k [IsDol; IsTagList] -> (match k with IsDol => print_emv_dol e v prefix (Datatypes.S d) | _ => Ret [] end) = Ret [] /\
     (match k with IsTagList => print_emv_tag_list e v prefix (Datatypes.S d) | _ => Ret [] end) = Ret [] /\ k <> IsDol) by (intros N; cbn [In] in N; destruct k; try (split; [reflexivity|split; [reflexivity|discriminate]]); tauto).
  destruct s as [|c s0] eqn:Es.
  - cbn [str_is_list]. assert (K : k = IsDol \/ k = IsTagList \/ ~ In k [IsDol; IsTagList]) by (cbn [In]; destruct k; auto; right; right; intuition discriminate).
    destruct K as [-> |[-> |N]].
    + assert (D : df_name_entry v \/ ~ df_name_entry v).
      { destruct (dol_lines_run e prefix d (Datatypes.S (length v)) v B ltac:(lia)) as [(_ & X)|(l & X & _)]; [now left|right]. intros (bf & es & af & Hd & ->). rewrite (dol_lines_stray e prefix d bf es Hd) in X by lia. discriminate. }
      destruct (dol_print e v prefix (Datatypes.S d) B) as (D1 & D2). destruct D as [D|D].
      * left. rewrite (D1 D). split; [reflexivity|]. split; [tauto|exact D].
      * right. split; [tauto|]. destruct (D2 D) as (txt & -> & Q). cbn [bind]. eexists. split; [reflexivity|]. cbn [app]. rewrite app_nil_r. exact (de_dol prefix d v txt Q).
    + right. split; [apply ND; discriminate|]. destruct (tag_list_print e v prefix (Datatypes.S d) B) as (txt & -> & Q). cbn [bind]. eexists. split; [reflexivity|]. cbn [app]. exact (de_tags prefix d v txt Q).
    + right. destruct (P1 N) as (-> & -> & N'). split; [apply ND, N'|]. cbn [bind]. eexists. split; [reflexivity|]. cbn [app]. exact (de_none prefix d v k N).
  - right. assert (N : ~ In k [IsDol; IsTagList]) by (intros I; specialize (KS I); discriminate). destruct (P1 N) as (-> & -> & N'). split; [apply ND, N'|]. rewrite <- Es in *. assert (SN : s <> []) by (rewrite Es; discriminate).
    assert (SL : str_is_list s = (last s 0 =? 10)) by (rewrite Es; reflexivity).
    replace (match s with [] => true | _ :: _ => str_is_list s end) with (str_is_list s) by (rewrite Es; reflexivity). rewrite SL. destruct (Z.eqb_spec (last s 0) 10) as [L|L].
    + cbn [bind]. destruct (lines_split s SN L) as (ts & T1 & T2 & ->). eexists. split; [reflexivity|]. rewrite print_lines by exact T2. rewrite app_nil_r. exact (de_list prefix d v k ts N T1 T2).
    + eexists. split; [reflexivity|]. assert (K : In k [IsA; IsAN; IsANS] \/ ~ In k [IsA; IsAN; IsANS]) by (cbn [In]; destruct k; auto; right; intuition discriminate).
      destruct K as [K|K].
      * pose proof (de_text prefix d v k s K SN L) as Q. replace (match k with IsA | IsAN | IsANS => lit " " ++ [34] ++ s ++ [34] | _ => lit " (" ++ s ++ lit ")" end) with (lit " " ++ [34] ++ s ++ [34]) by (cbn [In] in K; destruct K as [<-|[<-|[<-|[]]]]; reflexivity).
        rewrite <- !app_assoc. exact Q.
      * pose proof (de_other prefix d v k s K SN L) as Q. replace (match k with IsA | IsAN | IsANS => lit " " ++ [34] ++ s ++ [34] | _ => lit " (" ++ s ++ lit ")" end) with (lit " (" ++ s ++ lit ")") by (cbn [In] in K; destruct k; tauto || reflexivity).
        rewrite <- !app_assoc. exact Q.
Qed.

(** Tags of templates are not among those that cannot be described. *)
Lemma node_tag id : identifier id -> constructed (hd 0 id) -> ~ In (be id) stray_tags.
Proof.
  intros Hid C I. pose proof (identifier_bytes _ Hid) as B. pose proof (identifier_length _ Hid) as L.
  assert (R : be id < 65536) by (unfold stray_tags in I; cbn [In] in I; repeat (destruct I as [I|I]; [rewrite <- I; lia|]); contradiction).
  destruct id as [|a [|b [|c l]]]; cbn [length] in L; [lia| | |].
  - change (be [a]) with a in I. cbn [hd] in C. unfold constructed in C. unfold stray_tags in I. cbn [In] in I. repeat (destruct I as [I|I]; [first [rewrite <- I in C; vm_compute in C; discriminate C | inversion B as [|? ? Ba _]; unfold is_byte in Ba; lia]|]). contradiction.
  - change (be [a; b]) with (a * 256 + b) in I. inversion B as [|? ? Ba B2]; subst. inversion B2 as [|? ? Bb _]; subst. unfold is_byte in *. cbn [hd] in C. unfold constructed in C.
    inversion Hid as [|? more last Hb H31 Hm Hl Hlen Hq]; subst. pose proof (Z.mod_le a 32 ltac:(lia) ltac:(lia)).
    unfold stray_tags in I. cbn [In] in I. repeat (destruct I as [I|I]; [first [lia | (assert (a = 0x9F \/ a = 0x5F) as [-> | ->] by lia; vm_compute in C; discriminate C)]|]). contradiction.
  - exfalso. clear I. rewrite be_cons in R. inversion Hid as [|? more last Hb H31 Hm Hl Hlen Hq]; subst. pose proof (Z.mod_le a 32 ltac:(unfold is_byte in Hb; lia) ltac:(lia)).
    apply Forall_inv_tail in B. pose proof (be_range _ B) as (Q & _). assert (256 ^ 2 <= 256 ^ Zlen (b :: c :: l)) by (apply Z.pow_le_mono_r; [lia|]; unfold Zlen; cbn [length]; lia). nia.
Qed.
Lemma node_info e tag id v junk : arrays e -> bytes v -> (11 <= length junk)%nat -> tag = be id -> identifier id -> constructed (hd 0 id) ->
  exists r n k new, tlv_get_info e tag (Octets v) junk = Ret (r, n, k, new) /\ has_name tag v n.
Proof.
  intros A B L -> Hid C. assert (NE : junk <> []) by (intros ->; cbn in L; lia). destruct (C106_info_partial e (be id) v junk A B NE (or_introl L)) as (_ & X).
  destruct X as (r & n & k & new & s & E & _); [intros S; apply stray_tag in S; exact (node_tag id Hid C S)|]. exists r, n, k, new. split; [exact E|]. exact (proj1 (C105_names _ _ _ _ _ _ _ _ B E)).
Qed.
Lemma leaf_info e tag v junk : arrays e -> bytes v -> (11 <= length junk)%nat ->
  (tlv_get_info e tag (Octets v) junk = UB /\ stray_field tag v junk) \/
  (~ stray_field tag v junk /\ exists r n k new s, tlv_get_info e tag (Octets v) junk = Ret (r, n, k, new) /\ cstring new = Some s /\ has_name tag v n).
Proof.
  intros A B L. destruct junk as [|c t]; [cbn in L; lia|]. destruct (info_safety e tag v c t A B (or_introl L)) as [(S & E)|(S & (r & n & k & new & E & _ & I))].
  - left. split; [exact E|exact S].
  - right. split; [exact S|]. destruct (in_cstring new I) as (s & C). exists r, n, k, new, s. split; [exact E|]. split; [exact C|]. exact (proj1 (C105_names _ _ _ _ _ _ _ _ B E)).
Qed.

(** ** Data *)
Lemma emv_safe e prefix junk : arrays e -> (11 <= length junk)%nat ->
  forall fuel buf itr valid d ign, bytes itr -> small itr -> (length itr < fuel)%nat ->
  (exists txt x, emv_loop e prefix junk fuel buf itr valid d ign = Ret (txt, x)) \/
  (emv_loop e prefix junk fuel buf itr valid d ign = UB /\
   exists pre enc post tag flags v, itr = pre ++ enc ++ post /\ encodes enc tag flags v /\ unprintable tag v junk).
Proof.
  intros Ar Lj. assert (NE : junk <> []) by (intros ->; cbn in Lj; lia). induction fuel as [|fuel IH]; intros buf itr valid d ign Hbi Hsi Hf; [lia|].
  cbn [emv_loop].
  destruct (itr_next_step itr Hbi Hsi) as (r & t & Ed & Hok & En). rewrite En; cbn [bind].
  destruct (Z.leb_spec r 0) as [Hr|Hr].
  { left. destruct (emv_end prefix buf valid d ign r); eauto. }
  destruct t as [t|]; cbn [ber_ok] in Hok; [|lia].
  destruct (decode_piece itr r t Hbi Hsi Ed) as [Hp Hlen].
  set (p := firstn (Z.to_nat r) itr) in *. set (rest := skipn (Z.to_nat r) itr) in *.
  assert (Eitr : itr = p ++ rest) by (symmetry; apply firstn_skipn).
  assert (Hlp : length p = Z.to_nat r) by (apply firstn_length_le; lia).
  destruct (piece_cases p t) as (Hl & Hfb & Hvb & Hvl & Hprim & Hcons); auto.
  { subst p. auto. }
  assert (Hlr : length rest = (length itr - Z.to_nat r)%nat) by (subst rest; apply skipn_length).
  assert (Hbr : bytes rest) by (subst rest; auto).
  assert (Hsr : small rest) by (eapply small_le; [exact Hsi|lia]).
  destruct (ber_is_constructed t).
  - destruct (Hcons eq_refl) as (id & lf & Ep & Hid & Hc & Ht & _).
    assert (Hvs : small (b_val t)) by (eapply small_le; [exact Hsi|lia]).
    destruct (node_info e (b_tag t) id (b_val t) junk Ar Hvb Lj Ht Hid Hc) as (r1 & n & k & new & -> & _). cbn [bind].
    destruct (IH (b_val t) (b_val t) 0 (Datatypes.S d) ign Hvb Hvs ltac:(lia))
      as [(kevs & r2 & ->)|(-> & pre & enc & post & tag2 & f2 & v2 & E2 & H2)].
    2:{ right. split; [reflexivity|]. exists (id ++ lf ++ pre), enc, (post ++ rest), tag2, f2, v2. split; [|exact H2].
        rewrite Eitr, Ep, E2. now rewrite <- !app_assoc. }
    cbn [bind]. destruct (r2 <? 0); [eauto|]. destruct (r2 <? b_len t); [eauto|].
    destruct (IH buf rest (valid + (r - b_len t) + r2) d ign Hbr Hsr ltac:(lia))
      as [(evs & x & ->)|(-> & pre & enc & post & tag2 & f2 & v2 & E2 & H2)].
    { left. cbn [bind]. eauto. }
    right. split; [reflexivity|]. exists (p ++ pre), enc, post, tag2, f2, v2. split; [rewrite Eitr, E2; now rewrite <- app_assoc|exact H2].
  - destruct (Hprim eq_refl) as (He & _). destruct (leaf_info e (b_tag t) (b_val t) junk Ar Hvb Lj) as [(-> & S)|(_ & (r1 & n & k & new & s & E & C & _))].
    { right. split; [reflexivity|]. exists [], p, rest, (b_tag t), (b_flags t), (b_val t). split; [exact Eitr|]. split; [exact He|left; exact S]. }
    rewrite E. cbn [bind]. destruct (value_print e prefix d (b_tag t) (b_val t) junk r1 n k new s NE Hvb E C) as [(-> & D1 & D2)|(_ & desc & -> & _)]; cbn [bind].
    { right. split; [reflexivity|]. exists [], p, rest, (b_tag t), (b_flags t), (b_val t). split; [exact Eitr|]. split; [exact He|right; split; [exact D1|exact D2]]. }
    destruct (IH buf rest (valid + r) d ign Hbr Hsr ltac:(lia))
      as [(evs & x & ->)|(-> & pre & enc & post & tag2 & f2 & v2 & E2 & H2)].
    { left. cbn [bind]. eauto. }
    right. split; [reflexivity|]. exists (p ++ pre), enc, post, tag2, f2, v2. split; [rewrite Eitr, E2; now rewrite <- app_assoc|exact H2].
Qed.

Lemma head_ok prefix d id n v : identifier id -> small v ->
  field_head prefix d (be id) (Zlen v) n = List.concat (repeat prefix d) ++ head_text id n v.
Proof.
  intros Hid S. unfold field_head, head_text, indent. rewrite titled_ok by exact Hid. rewrite <- bracketed_ok by (pose proof (Zlen_nonneg v); unfold small in S; lia). reflexivity.
Qed.
Lemma emv_forest e prefix junk : arrays e -> (11 <= length junk)%nat -> forall enc ts, forest true enc ts -> forall tail fuel buf valid d ign,
  small (enc ++ tail) -> (length (enc ++ tail) < fuel)%nat ->
  (emv_loop e prefix junk fuel buf (enc ++ tail) valid d ign = UB /\ Exists (fun f => unprintable (f_tag f) (f_val f) junk) (flat_map leaves ts)) \/
  exists txt fuel', emv_loop e prefix junk fuel buf (enc ++ tail) valid d ign =
      (let* (txt', x) := emv_loop e prefix junk fuel' buf tail (valid + Zlen enc) d ign in Ret (txt ++ txt', x)) /\ (length tail < fuel')%nat /\ data_text (describes e junk) prefix d enc txt /\
    Forall (fun f => ~ unprintable (f_tag f) (f_val f) junk) (flat_map leaves ts).
Proof.
  intros Ar Lj. assert (NE : junk <> []) by (intros ->; cbn in Lj; lia).
  induction 1 as [|enc tag flags v encs ts He Hf Hl IH|enc tag flags v kids encs ts He Hf Hi IHi Hl IH|id v kids encs ts Q]; intros tail fuel buf valid d ign Hs Hfu; [| | |discriminate].
  - right. exists [], fuel. cbn [app] in *. split; [|split; [exact Hfu|split; [constructor|constructor]]]. change (Zlen []) with 0. rewrite Z.add_0_r. destruct (emv_loop e prefix junk fuel buf tail valid d ign) as [[? ?]| |]; reflexivity.
  - destruct fuel; [lia|]. cbn [emv_loop].
    rewrite <- app_assoc in *. destruct (itr_next_encodes _ _ _ _ (encs ++ tail) He Hs) as (off & ->). cbn [bind].
    pose proof (encodes_vlen _ _ _ _ He) as Hvl. rewrite app_length in Hfu. assert (Hz2 : Zlen (enc ++ encs) = Zlen enc + Zlen encs) by (unfold Zlen; rewrite app_length; lia). rewrite Hz2.
    destruct (Z.leb_spec (Zlen enc) 0); [unfold Zlen in *; lia|].
    rewrite prim_flag by (cbn [b_flags]; first [exact Hf | eapply encodes_flags; eauto]). cbn [b_tag b_val b_len].
    pose proof (enc_value_bytes _ _ _ _ He) as Bv. destruct (leaf_info e tag v junk Ar Bv Lj) as [(-> & SF)|(SF & (r1 & n & k & new & s & E & C & HN))]; [left; split; [reflexivity|]; cbn [flat_map leaves app]; apply Exists_cons_hd; left; exact SF|].
    rewrite E. cbn [bind]. destruct (value_print e prefix d tag v junk r1 n k new s NE Bv E C) as [(-> & DF)|(DF & desc & -> & HD)]; cbn [bind]; [left; split; [reflexivity|]; cbn [flat_map leaves app]; apply Exists_cons_hd; right; exact DF|].
    destruct (IH tail fuel buf (valid + Zlen enc) d ign ltac:(eapply small_app_r; eauto) ltac:(lia)) as [(-> & XT)|(txt & fuel' & -> & Lf & HT & FT)]; [left; split; [reflexivity|]; cbn [flat_map leaves app]; apply Exists_cons_tl; exact XT|]. right.
    destruct He as [_ (id & lf & Ee & Hid & -> & Hlf & Hfl)]. exists (field_head prefix d (be id) (Zlen v) n ++ (spaced v ++ desc) ++ txt), fuel'.
    split; [rewrite <- Z.add_assoc; destruct (emv_loop e prefix junk fuel' buf tail (valid + (Zlen enc + Zlen encs)) d ign) as [[? ?]| |]; cbn [bind]; rewrite <- ?app_assoc; reflexivity|]. split; [exact Lf|]. split; [|cbn [flat_map leaves app]; constructor; [cbn [f_tag f_val]; intros [U|U]; [exact (SF U)|exact (DF U)]|exact FT]]. assert (Sv : small v) by (eapply small_le; [exact Hs|rewrite app_length; lia]). rewrite head_ok by auto.
    rewrite Ee. rewrite <- !app_assoc. pose proof (da_leaf (describes e junk) prefix d id lf v encs (List.concat (repeat prefix d) ++ head_text id n v ++ spaced v ++ desc) txt Hid) as Q.
    rewrite <- !app_assoc in Q. apply Q; clear Q; [|exact Hlf| |exact HT].
    + intros Cn. rewrite Hfl in Hf. rewrite (proj2 (constructed_flag id Hid) Cn) in Hf. discriminate.
    + exists n, k, s, desc. split; [exact HN|]. split; [exists r1, n, new; auto|]. split; [exact HD|reflexivity].
  - destruct fuel; [lia|]. cbn [emv_loop].
    rewrite <- app_assoc in *. destruct (itr_next_encodes _ _ _ _ (encs ++ tail) He Hs) as (off & ->). cbn [bind].
    pose proof (encodes_vlen _ _ _ _ He) as Hvl. rewrite app_length in Hfu. assert (Hz2 : Zlen (enc ++ encs) = Zlen enc + Zlen encs) by (unfold Zlen; rewrite app_length; lia). rewrite Hz2.
    destruct (Z.leb_spec (Zlen enc) 0); [unfold Zlen in *; lia|].
    rewrite cons_flag by (cbn [b_flags]; first [exact Hf | eapply encodes_flags; eauto]). cbn [b_tag b_val b_len].
    pose proof (enc_value_bytes _ _ _ _ He) as Bv. destruct He as [_ (id & lf & Ee & Hid & Ht & Hlf & Hfl)].
    assert (Cn : constructed (hd 0 id)) by (rewrite Hfl in Hf; now apply (constructed_flag id Hid)).
    destruct (node_info e tag id v junk Ar Bv Lj Ht Hid Cn) as (r1 & n & k & new & -> & HN). cbn [bind].
    assert (Sv : small v) by (eapply small_le; [exact Hs|rewrite app_length; lia]).
    pose proof (IHi [] fuel v 0 (Datatypes.S d) ign) as HX. rewrite app_nil_r in HX. destruct (HX Sv ltac:(lia)) as [(-> & XI)|(inner & fi & -> & Li & HI & FI)]; clear HX; [left; split; [reflexivity|]; cbn [flat_map leaves]; apply Exists_app; left; exact XI|]. cbn [bind].
    destruct fi as [|fi]; [cbn [length] in Li; lia|]. cbn [emv_loop]. rewrite itr_next_nil. cbn [bind Z.leb Z.compare]. unfold emv_end. cbn [Z.ltb Z.compare bind]. rewrite Z.add_0_l, app_nil_r.
    pose proof (Zlen_nonneg v). destruct (Z.ltb_spec (Zlen v) 0); [lia|]. rewrite Z.ltb_irrefl.
    destruct (IH tail fuel buf (valid + (Zlen enc - Zlen v) + Zlen v) d ign ltac:(eapply small_app_r; eauto) ltac:(lia)) as [(-> & XT)|(txt & fuel' & -> & Lf & HT & FT)]; [left; split; [reflexivity|]; cbn [flat_map leaves]; apply Exists_app; right; exact XT|]. right.
    exists (field_head prefix d tag (Zlen v) n ++ newline ++ inner ++ txt), fuel'.
    split; [replace (valid + (Zlen enc - Zlen v) + Zlen v + Zlen encs) with (valid + (Zlen enc + Zlen encs)) by lia;
      destruct (emv_loop e prefix junk fuel' buf tail (valid + (Zlen enc + Zlen encs)) d ign) as [[? ?]| |]; cbn [bind]; rewrite <- ?app_assoc; reflexivity|]. split; [exact Lf|].
    split; [|cbn [flat_map leaves]; apply Forall_app; split; [exact FI|exact FT]]. subst tag. rewrite head_ok by auto. rewrite Ee. rewrite <- !app_assoc.
    pose proof (da_node (describes e junk) prefix d id lf v encs n inner txt Hid Cn Hlf HN HI HT) as Q. unfold line_at, nl in Q. unfold newline. rewrite <- !app_assoc in *. exact Q.
Qed.

Lemma emv_end_nil e prefix junk fuel buf valid d ign : (0 < fuel)%nat -> emv_loop e prefix junk fuel buf [] valid d ign = Ret ([], valid).
Proof. intros H. destruct fuel; [lia|]. cbn [emv_loop]. rewrite itr_next_nil. reflexivity. Qed.
Theorem print_forest e prefix junk buf ts d ign : arrays e -> (11 <= length junk)%nat -> forest true buf ts -> small buf ->
  (print_emv_text e prefix junk buf d ign = UB /\ Exists (fun f => unprintable (f_tag f) (f_val f) junk) (flat_map leaves ts)) \/
  exists txt, print_emv_text e prefix junk buf d ign = Ret txt /\ data_text (describes e junk) prefix d buf txt /\
    Forall (fun f => ~ unprintable (f_tag f) (f_val f) junk) (flat_map leaves ts).
Proof.
  intros Ar Lj F S. unfold print_emv_text, ber_itr_init. pose proof (emv_forest e prefix junk Ar Lj buf ts F [] (Datatypes.S (length buf)) buf 0 d ign) as Q. rewrite app_nil_r in Q.
  destruct (Q S ltac:(lia)) as [(-> & X)|(txt & fuel' & -> & Lf & D & FA)]; [left; auto|]. right. rewrite emv_end_nil by (cbn [length] in Lf; lia). cbn [bind]. eexists. split; [reflexivity|].
  rewrite Z.add_0_l. pose proof (Zlen_nonneg buf). destruct (Z.ltb_spec (Zlen buf) 0); [lia|]. rewrite Z.ltb_irrefl, andb_false_r, !app_nil_r. split; [exact D|exact FA].
Qed.
(** ** Invalid data *)
Lemma tag_loop_low fuel : forall buf off tag r t, ber_tag_loop fuel buf off tag = Ret (r, t) -> -11 <= r.
Proof.
  induction fuel as [|fuel IH]; intros buf off tag r t E; [discriminate|]. cbn [ber_tag_loop] in E. destruct (length buf <=? off)%nat; [injection E as <- _; lia|].
  destruct (rd buf off); try discriminate. cbn [bind] in E. destruct (Z.land a 128 =? 0); [injection E as <- _; lia|]. destruct (4 <=? Datatypes.S off)%nat; [injection E as <- _; lia|]. eauto.
Qed.
Lemma tag_low buf r t : ber_tag_decode buf = Ret (r, t) -> -11 <= r.
Proof.
  unfold ber_tag_decode. destruct (length buf =? 0)%nat; [intros E; injection E as <- _; lia|]. destruct (rd buf 0); try discriminate. cbn [bind]. destruct (Z.land a 31 =? 31); [apply tag_loop_low|intros E; injection E as <- _; lia].
Qed.
Lemma indef_low fuel : forall buf off l r x, ber_indef_f fuel buf off l = Ret (r, x) -> -11 <= r.
Proof.
  induction fuel as [|fuel IH]; intros buf off l r x E; [discriminate|]. cbn [ber_indef_f] in E.
  match type of E with (let* rest := ?m in _) = _ => destruct m; try discriminate end. cbn [bind] in E. destruct (ber_decode_f fuel a) as [[r0 o]| |]; try discriminate. cbn [bind] in E.
  destruct (r0 <? 0); [injection E as <- _; lia|]. destruct (r0 =? 0); [injection E as <- _; lia|]. destruct o as [t|]; [|discriminate]. destruct (b_tag t =? 0); [injection E as <- _; lia|]. eauto.
Qed.
Lemma ber_low buf r : ber_decode buf = Ret (r, None) -> -11 <= r.
Proof.
  unfold ber_decode. cbn [ber_decode_f]. destruct (length buf =? 0)%nat; [intros E; injection E as <-; lia|]. destruct (length buf <? 2)%nat; [intros E; injection E as <-; lia|].
  destruct (ber_tag_decode buf) as [[r0 tag]| |] eqn:T; try discriminate. cbn [bind]. destruct (r0 <=? 0); [intros E; injection E as <-; eapply tag_low; eauto|].
  destruct (length buf <=? Z.to_nat r0)%nat; [intros E; injection E as <-; lia|]. destruct (rd buf 0); try discriminate. cbn [bind]. destruct (rd buf (Z.to_nat r0)); try discriminate. cbn [bind].
  assert (Fin : forall off l, (if Zlen buf <? Z.of_nat off + l then Ret (-11, None)
            else let* v := sub buf off (Z.to_nat l) in Ret (to_int (Z.of_nat off + l), Some (mkBer tag l off v (Z.land a (Z.lor 192 32))))) = Ret (r, None) -> -11 <= r).
  { intros off l. destruct (Zlen buf <? Z.of_nat off + l); [intros E; injection E as <-; lia|]. destruct (sub buf off (Z.to_nat l)); discriminate. }
  destruct (a0 =? 128).
  - destruct (Z.land a 32 =? 0); [intros E; injection E as <-; lia|]. destruct (ber_indef_f (length buf) buf (Datatypes.S (Z.to_nat r0)) 0) as [[x l]| |] eqn:I; try discriminate. cbn [bind].
    destruct (x <? 0); [intros E; injection E as <-; eapply indef_low; eauto|]. apply Fin.
  - destruct (negb (Z.land a0 128 =? 0)); [|apply Fin]. destruct (4 <? Z.to_nat (Z.land a0 127))%nat; [intros E; injection E as <-; lia|].
    match goal with |- (if ?c then _ else _) = _ -> _ => destruct c; [intros E; injection E as <-; lia|] end.
    match goal with |- (let* x := ?m in _) = _ -> _ => destruct m; try discriminate end. cbn [bind]. apply Fin.
Qed.
Lemma no_object_next bad : bytes bad -> small bad -> no_object bad -> exists r, -11 <= r < 0 /\ ber_itr_next bad = Ret (r, None, bad).
Proof.
  intros B S (NE & N1 & N2). destruct (itr_next_step bad B S) as (r & t & Ed & Hok & En). exists r. destruct t as [t|]; cbn [ber_ok] in Hok.
  - exfalso. destruct (decode_piece bad r t B S Ed) as ([(P & _)|(id & P & Hid & C & _)] & _).
    + apply (N1 _ _ _ _ (skipn (Z.to_nat r) bad) P). symmetry. apply firstn_skipn.
    + apply (N2 id (b_val t ++ skipn (Z.to_nat r) bad) Hid C). change (id ++ 128 :: b_val t ++ skipn (Z.to_nat r) bad) with (id ++ (128 :: b_val t) ++ skipn (Z.to_nat r) bad).
      rewrite app_assoc, <- P. symmetry. apply firstn_skipn.
  - assert (r <> 0) by (intros Z0; apply NE; eapply decode_err_nonempty; eauto). pose proof (ber_low _ _ Ed). split; [lia|]. rewrite En. replace (Z.to_nat r) with O by lia. reflexivity.
Qed.
Lemma land_7 n : 0 <= n -> (Z.land n 0x7 =? 0) = (n mod 8 =? 0).
Proof. intros H. change 0x7 with (Z.ones 3). rewrite Z.land_ones by lia. reflexivity. Qed.
Lemma land_F n : 0 <= n -> (Z.land n 0xF =? 0) = (n mod 16 =? 0).
Proof. intros H. change 0xF with (Z.ones 4). rewrite Z.land_ones by lia. reflexivity. Qed.
Lemma emv_end_bad prefix enc bad d ign r : bad <> [] -> small (enc ++ bad) -> bytes bad -> -11 <= r < 0 ->
  (ign = true /\ padding (enc ++ bad) bad /\ emv_end prefix (enc ++ bad) (Zlen enc) d ign r = (padding_text prefix d bad, Zlen (enc ++ bad))) \/
  (~ (ign = true /\ padding (enc ++ bad) bad) /\ emv_end prefix (enc ++ bad) (Zlen enc) d ign r = (lit "BER decoding error -" ++ decimal_text (- r), Zlen enc)).
Proof.
  intros NE S B R. unfold emv_end. destruct (Z.ltb_spec r 0); [|lia]. pose proof (Zlen_nonneg (enc ++ bad)) as P. rewrite land_7, land_F by exact P.
  assert (La : Zlen (enc ++ bad) = Zlen enc + Zlen bad) by (unfold Zlen; rewrite app_length; lia). assert (Lb : 0 < Zlen bad) by (destruct bad; [contradiction|unfold Zlen; cbn [length]; lia]).
  assert (Ld : Zlen (enc ++ bad) - Zlen enc = Zlen bad) by lia. rewrite Ld. destruct (Z.ltb_spec (Zlen enc) (Zlen (enc ++ bad))); [|lia]. rewrite andb_true_r.
  replace (Z.to_nat (Zlen enc)) with (length enc) by (unfold Zlen; lia). rewrite skipn_length_app. rewrite spaced_ok by exact B. rewrite !p_dec_text by (unfold small in S; pose proof (Zlen_nonneg bad); pose proof (Zlen_nonneg enc); lia).
  destruct ign; cbn [andb].
  - destruct ((((Zlen (enc ++ bad) mod 8 =? 0) && (Zlen bad <? 8)) || ((Zlen (enc ++ bad) mod 16 =? 0) && (Zlen bad <? 15)))%bool) eqn:E.
    + left. split; [reflexivity|]. split; [unfold padding; lia|]. f_equal. unfold padding_text, line_at, indent, bracketed, newline, nl. change (lit "Padding : [") with (lit "Padding : " ++ [91]). change (lit "]") with [93]. rewrite <- !app_assoc. reflexivity.
    + right. split; [|reflexivity]. unfold padding. intros (_ & Q). lia.
  - right. split; [intros (Q & _); discriminate|reflexivity].
Qed.
Theorem print_invalid e prefix junk enc bad ts d ign : arrays e -> (11 <= length junk)%nat -> forest true enc ts -> no_object bad -> bytes bad -> small (enc ++ bad) ->
  (print_emv_text e prefix junk (enc ++ bad) d ign = UB /\ Exists (fun f => unprintable (f_tag f) (f_val f) junk) (flat_map leaves ts)) \/
  exists txt code, data_text (describes e junk) prefix d enc txt /\ Forall (fun f => ~ unprintable (f_tag f) (f_val f) junk) (flat_map leaves ts) /\ 1 <= code <= 11 /\
    ((ign = true /\ padding (enc ++ bad) bad) -> print_emv_text e prefix junk (enc ++ bad) d ign = Ret (txt ++ padding_text prefix d bad)) /\
    (~ (ign = true /\ padding (enc ++ bad) bad) -> print_emv_text e prefix junk (enc ++ bad) d ign = Ret (txt ++ error_text code (Zlen enc) bad)).
Proof.
  intros Ar Lj F N B S. unfold print_emv_text, ber_itr_init.
  destruct (emv_forest e prefix junk Ar Lj enc ts F bad (Datatypes.S (length (enc ++ bad))) (enc ++ bad) 0 d ign S ltac:(lia)) as [(-> & X)|(txt & fuel' & -> & Lf & D & FA)]; [left; auto|].
  right. assert (Sb : small bad) by (eapply small_app_r; eauto). destruct (no_object_next bad B Sb N) as (r & Rr & En). exists txt, (- r). split; [exact D|]. split; [exact FA|]. split; [lia|].
  destruct fuel' as [|f']; [lia|]. cbn [emv_loop]. rewrite En. cbn [bind]. destruct (Z.leb_spec r 0); [|lia]. rewrite Z.add_0_l.
  assert (La : Zlen (enc ++ bad) = Zlen enc + Zlen bad) by (unfold Zlen; rewrite app_length; lia). pose proof (Zlen_nonneg enc). pose proof (Zlen_nonneg bad).
  destruct (emv_end_bad prefix enc bad d ign r (proj1 N) S B Rr) as [(P1 & P2 & ->)|(P1 & ->)]; (split; [intros Hp|intros Hp]); try tauto; cbn [bind].
  - destruct (Z.ltb_spec (Zlen (enc ++ bad)) 0); [lia|]. rewrite Z.ltb_irrefl, andb_false_r, !app_nil_r. reflexivity.
  - destruct (Z.ltb_spec (Zlen enc) 0); [lia|]. assert (0 < Zlen bad) by (destruct bad; [destruct N as [N _]; contradiction|unfold Zlen; cbn [length]; lia]).
    destruct (Z.leb_spec 0 (Zlen enc)); [|lia]. destruct (Z.ltb_spec (Zlen enc) (Zlen (enc ++ bad))); [|lia]. cbn [andb app]. replace (Z.to_nat (Zlen enc)) with (length enc) by (unfold Zlen; lia). rewrite skipn_length_app, spaced_ok by exact B.
    rewrite p_dec_text by (unfold small in S; lia). unfold error_text, newline, nl. rewrite <- !app_assoc. reflexivity.
Qed.

Lemma broken_range buf off : broken buf off -> 0 <= off < Zlen buf.
Proof.
  induction 1 as [enc ts bad F N|enc ts id lf v rest off F Hid C L Br IH].
  - destruct N as (N & _). unfold Zlen. rewrite app_length. destruct bad; [contradiction|cbn [length]; lia].
  - unfold Zlen in *. rewrite !app_length. lia.
Qed.
Lemma emv_broken e prefix junk : arrays e -> (11 <= length junk)%nat -> forall buf off, broken buf off -> bytes buf -> small buf -> forall fuel d, (length buf < fuel)%nat ->
  (emv_loop e prefix junk fuel buf buf 0 d false = UB /\ exists pre enc post tag flags v, buf = pre ++ enc ++ post /\ encodes enc tag flags v /\ unprintable tag v junk) \/
  exists txt, emv_loop e prefix junk fuel buf buf 0 d false = Ret (txt, off) /\ broken_text (describes e junk) prefix d buf off txt.
Proof.
  intros Ar Lj buf off Br. assert (NE : junk <> []) by (intros ->; cbn in Lj; lia). induction Br as [enc ts bad F N|enc ts id lf v rest off F Hid C L Br IH]; intros B S fuel d Hf.
  - destruct (emv_safe e prefix junk Ar Lj fuel (enc ++ bad) (enc ++ bad) 0 d false B S Hf) as [(t & x & Er)|U]; [right|left; exact U].
    destruct (emv_forest e prefix junk Ar Lj enc ts F bad fuel (enc ++ bad) 0 d false S Hf) as [(U & _)|(txt & fuel' & E & Lf & D & _)]; [congruence|]. rewrite E.
    assert (Bb : bytes bad) by (apply bytes_app in B; tauto). destruct (no_object_next bad Bb ltac:(eapply small_app_r; eauto) N) as (r & Rr & En). destruct fuel' as [|f']; [lia|]. cbn [emv_loop]. rewrite En. cbn [bind]. destruct (Z.leb_spec r 0); [|lia]. rewrite Z.add_0_l.
    destruct (emv_end_bad prefix enc bad d false r (proj1 N) S Bb Rr) as [(Q & _)|(_ & ->)]; [discriminate|]. cbn [bind]. eexists. split; [reflexivity|]. apply bt_here; [exact D|exact N|lia].
  - destruct (emv_safe e prefix junk Ar Lj fuel (enc ++ id ++ lf ++ v ++ rest) (enc ++ id ++ lf ++ v ++ rest) 0 d false B S Hf) as [(t & x & Er)|U]; [right|left; exact U]. revert t x Er.
    destruct (emv_forest e prefix junk Ar Lj enc ts F (id ++ lf ++ v ++ rest) fuel (enc ++ id ++ lf ++ v ++ rest) 0 d false S Hf) as [(-> & _)|(txt & fuel' & -> & Lf & D & _)]; [discriminate|].
    destruct fuel' as [|f']; [lia|]. cbn [emv_loop].
    assert (Bt : bytes (id ++ lf ++ v ++ rest)) by (apply bytes_app in B; tauto). assert (Bv : bytes v) by (apply bytes_app in Bt as (_ & Bt); apply bytes_app in Bt as (_ & Bt); apply bytes_app in Bt; tauto).
    assert (St : small (id ++ lf ++ v ++ rest)) by (eapply small_app_r; eauto). assert (Sv : small v) by (eapply small_le; [exact St|rewrite !app_length; lia]).
    assert (He : encodes (id ++ lf ++ v) (be id) (class_bits (hd 0 id)) v) by (split; [exact Bv|exists id, lf; auto]).
    assert (St' : small ((id ++ lf ++ v) ++ rest)) by (rewrite <- !app_assoc; exact St).
    destruct (itr_next_encodes _ _ _ _ rest He St') as (o & En). rewrite <- !app_assoc in En. rewrite En. cbn [bind]. pose proof (identifier_length _ Hid).
    assert (Lz : Zlen (id ++ lf ++ v) = Zlen id + Zlen lf + Zlen v) by (unfold Zlen; rewrite !app_length; lia). destruct (Z.leb_spec (Zlen (id ++ lf ++ v)) 0); [unfold Zlen in *; lia|].
    rewrite cons_flag by (cbn [b_flags]; first [now apply (constructed_flag id Hid) | eapply encodes_flags; eauto]). cbn [b_tag b_val b_len].
    destruct (node_info e (be id) id v junk Ar Bv Lj eq_refl Hid C) as (r1 & n & k & new & -> & HN). cbn [bind]. assert (Lv : (length v < f')%nat) by (rewrite !app_length in Lf; lia).
    destruct (IH Bv Sv f' (Datatypes.S d) Lv) as [(-> & _)|(inner & -> & BT)]; [intros t x Q; cbn in Q; discriminate|]. cbn [bind]. pose proof (broken_range _ _ Br) as R. destruct (Z.ltb_spec off 0); [lia|]. destruct (Z.ltb_spec off (Zlen v)); [|lia]. cbn [bind].
    intros t x _. eexists. split; [f_equal; f_equal; rewrite Lz; lia|]. rewrite head_ok by auto.
    pose proof (bt_in (describes e junk) prefix d enc id lf v rest off n txt inner D Hid C L HN BT) as Q. unfold line_at, nl in Q. unfold newline. rewrite <- !app_assoc in *. exact Q.
Qed.
Theorem print_broken e prefix junk buf off d : arrays e -> (11 <= length junk)%nat -> broken buf off -> bytes buf -> small buf ->
  (print_emv_text e prefix junk buf d false = UB /\ exists pre enc post tag flags v, buf = pre ++ enc ++ post /\ encodes enc tag flags v /\ unprintable tag v junk) \/
  exists txt, print_emv_text e prefix junk buf d false = Ret (txt ++ lit " at offset " ++ decimal_text off ++ lit "; remaining invalid data:" ++ spaced (skipn (Z.to_nat off) buf) ++ nl) /\ broken_text (describes e junk) prefix d buf off txt.
Proof.
  intros Ar Lj Br B S. unfold print_emv_text, ber_itr_init. destruct (emv_broken e prefix junk Ar Lj buf off Br B S (Datatypes.S (length buf)) d ltac:(lia)) as [(-> & U)|(txt & -> & T)]; [left; auto|right]. exists txt. split; [|exact T]. cbn [bind].
  pose proof (broken_range _ _ Br) as R. destruct (Z.ltb_spec off 0); [lia|]. destruct (Z.leb_spec 0 off); [|lia]. destruct (Z.ltb_spec off (Zlen buf)); [|lia]. cbn [andb app]. rewrite spaced_ok by (apply bytes_skipn; exact B). rewrite p_dec_text by (unfold small in S; lia). reflexivity.
Qed.

(** ** Commands and responses *)
Lemma rapdu_print r sw1 sw2 junk : bytes r -> is_byte sw1 -> is_byte sw2 -> junk <> [] ->
  exists s, (forall str, str <> [] -> exists new, sw1sw2_get_string sw1 sw2 str = Ret (true, new) /\ shown str new s) /\
    print_rapdu (r ++ [sw1; sw2]) junk = Ret (hex_text (r ++ [sw1; sw2]) ++ match firstn (length junk - 1) s with [] => [] | t => lit " (" ++ t ++ lit ")" end ++ nl).
Proof.
  intros B B1 B2 NE. destruct (sw_exact sw1 sw2 B1 B2) as (s & A & _). exists s. split; [exact A|]. unfold print_rapdu. rewrite app_length. cbn [length].
  destruct (Nat.eqb_spec (length r + 2) 0); [lia|]. destruct (Nat.ltb_spec (length r + 2) 2); [lia|].
  replace (length r + 2 - 2)%nat with (length r) by lia. rewrite rd_app_mid by reflexivity. cbn [bind].
  replace (length r + 2 - 1)%nat with (length (r ++ [sw1])) by (rewrite app_length; cbn [length]; lia). replace (r ++ [sw1; sw2]) with ((r ++ [sw1]) ++ [sw2]) by (now rewrite <- app_assoc). rewrite rd_app_mid by reflexivity. cbn [bind].
  destruct (A junk NE) as (new & -> & Ln & C). cbn [bind negb]. rewrite (p_s_cstring _ _ C). cbn [bind]. rewrite hex_02X; [destruct (firstn (length junk - 1) s); reflexivity|]. rewrite <- app_assoc. apply bytes_app_intro; [exact B|repeat constructor; unfold is_byte in *; lia].
Qed.
Lemma capdu_print c junk jid r new s : bytes c -> c <> [] -> emv_capdu_get_string c junk jid = Ret (r, new) -> cstring new = Some s ->
  print_capdu c junk jid = Ret (hex_text c ++ (if r =? 0 then lit " (" ++ s ++ lit ")" else []) ++ nl).
Proof.
  intros B NE E C. unfold print_capdu. destruct (Nat.eqb_spec (length c) 0); [destruct c; [contradiction|discriminate]|]. rewrite E. cbn [bind]. rewrite hex_02X by exact B. destruct (r =? 0); cbn [negb]; [|reflexivity].
  rewrite (p_s_cstring _ _ C). cbn [bind]. rewrite <- !app_assoc. reflexivity.
Qed.

(** ** Stored fields *)
Lemma field_print e prefix junk buf f d ign : arrays e -> (11 <= length junk)%nat -> field_of buf f -> small buf ->
  (print_emv_tlv_internal e f prefix junk d ign = UB /\ unprintable (f_tag f) (f_val f) junk) \/
  exists txt id, print_emv_tlv_internal e f prefix junk d ign = Ret txt /\ identifier id /\ f_tag f = be id /\ field_text (describes e junk) prefix d id (f_val f) txt /\ ~ unprintable (f_tag f) (f_val f) junk.
Proof.
  intros Ar Lj (pre & enc & post & flags & Eb & He & Hf & El & Ef) S. assert (NE : junk <> []) by (intros ->; cbn in Lj; lia). pose proof (enc_value_bytes _ _ _ _ He) as Bv. pose proof (encodes_vlen _ _ _ _ He) as Hvl.
  assert (Sv : small (f_val f)) by (eapply small_le; [exact S|rewrite Eb, !app_length; lia]). unfold print_emv_tlv_internal. rewrite Ef, El. change (negb (Z.land 0 0x20 =? 0)) with false. cbn [bind].
  destruct (leaf_info e (f_tag f) (f_val f) junk Ar Bv Lj) as [(-> & SF)|(SF & (r1 & n & k & new & s & E & C & HN))]; [left; split; [reflexivity|left; exact SF]|].
  rewrite E. cbn [bind]. destruct (value_print e prefix d (f_tag f) (f_val f) junk r1 n k new s NE Bv E C) as [(-> & DF)|(DF & desc & -> & HD)]; cbn [bind]; [left; split; [reflexivity|right; exact DF]|].
  right. destruct He as [_ (id & lf & Ee & Hid & Et & Hlf & Hfl)]. rewrite Et in *. exists (field_head prefix d (be id) (Zlen (f_val f)) n ++ spaced (f_val f) ++ desc), id. split; [reflexivity|]. split; [exact Hid|]. split; [reflexivity|]. split.
  - exists n, k, s, desc. split; [exact HN|]. split; [exists r1, n, new; auto|]. split; [exact HD|]. rewrite head_ok by auto. rewrite <- !app_assoc. reflexivity.
  - intros [U|U]; [exact (SF U)|exact (DF U)].
Qed.
Lemma list_print e junk buf l : arrays e -> (11 <= length junk)%nat -> Forall (field_of buf) l -> small buf ->
  (print_emv_tlv_list e l junk = UB /\ Exists (fun f => unprintable (f_tag f) (f_val f) junk) l) \/
  exists txts, print_emv_tlv_list e l junk = Ret (List.concat txts) /\
    Forall2 (fun f t => exists id, identifier id /\ f_tag f = be id /\ field_text (describes e junk) (lit "  ") 1 id (f_val f) t) l txts /\ Forall (fun f => ~ unprintable (f_tag f) (f_val f) junk) l.
Proof.
  intros Ar Lj F S. induction F as [|f l Ff F IH]; [right; exists []; repeat split; constructor|]. cbn [print_emv_tlv_list].
  destruct (field_print e (lit "  ") junk buf f 1 false Ar Lj Ff S) as [(-> & U)|(t & id & -> & Hid & Et & T & NU)]; cbn [bind]; [left; split; [reflexivity|constructor 1; exact U]|].
  destruct IH as [(-> & X)|(txts & -> & F2 & FN)]; cbn [bind]; [left; split; [reflexivity|constructor 2; exact X]|]. right. exists (t :: txts). split; [reflexivity|]. split; [constructor; eauto|constructor; auto].
Qed.
