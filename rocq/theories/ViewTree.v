(** The tree that is shown. *)
From Coq Require Import String.
From Verif Require Import Base BaseLemmas BerModel BerSpec BerProofs TlvModel TlvSpec TlvProofs StrModel StrSpec StrProofs CapduModel CapduSpec CapduProofs
  FlagsModel FlagsSpec DolModel DolSpec DolProofs InfoModel InfoSpec InfoProofs InfoProps ToolsModel ToolsSpec ToolsProofs PrintModel PrintSpec PrintProofs ViewModel ViewSpec ViewWalk.
Open Scope string_scope.
Open Scope Z_scope.
Open Scope list_scope.
Notation length := List.length.

Lemma value_str_length : length value_str = Z.to_nat 2048.
Proof. apply repeat_length. Qed.
Lemma value_str_enough : (11 <= length value_str)%nat.
Proof. rewrite value_str_length. lia. Qed.
Opaque value_str.

(** ** Lists *)
Lemma dol_items_run e fuel : forall buf, bytes buf -> (length buf < fuel)%nat ->
  (dol_items e fuel buf = UB /\ df_name_entry buf) \/ exists l, dol_items e fuel buf = Ret l /\ dol_shown buf l.
Proof.
  induction fuel as [|fuel IH]; intros buf B L; [lia|]. cbn [dol_items]. destruct (dol_itr_step buf B) as (r & en & itr' & E & H). rewrite E. cbn [bind].
  destruct H as [(H1 & -> & _)|(id & n & -> & Hid & Hn & -> & ->)].
  - destruct (Z.leb_spec r 0); [|lia]. right. exists []. split; [reflexivity|]. apply ds_end. intros id n rest Hid ->. rewrite dol_itr_next_cons in E by exact Hid. injection E as <- _ _. pose proof (Zlen_nonneg id). lia.
  - pose proof (identifier_length _ Hid). destruct (Z.leb_spec (Zlen id + 1) 0); [unfold Zlen in *; lia|].
    assert (N14 : (be id = 0x84 /\ Z.to_nat n = 14%nat) \/ ~ (be id = 0x84 /\ Z.to_nat n = 14%nat)) by (destruct (Z.eq_dec (be id) 0x84), (Nat.eq_dec (Z.to_nat n) 14); tauto).
    apply bytes_app in B as (_ & B). apply Forall_inv_tail in B. rewrite app_length in L. cbn [length] in L.
    destruct N14 as [N14|N14].
    + destruct (C106_entries_partial e (be id) (Z.to_nat n)) as (A & _). rewrite (A N14). cbn [bind]. left. split; [reflexivity|]. destruct N14 as (E84 & E14).
      exists [], [], itr'. split; [constructor|]. rewrite (be_84 id Hid E84). replace n with 14 by (unfold is_byte in Hn; lia). reflexivity.
    + destruct (entry_ok e (be id) (Z.to_nat n) N14) as (r & name & k & -> & HN). cbn [bind].
      destruct (IH itr' B ltac:(lia)) as [(-> & (bf & es & af & Hd & ->))|(l & -> & Hl)]; cbn [bind].
      * left. split; [reflexivity|]. exists (id ++ n :: bf), ((be id, n) :: es), af. split; [constructor; auto|]. now rewrite <- app_assoc.
      * right. eexists. split; [reflexivity|]. unfold field_str. rewrite titled_ok by exact Hid. pose proof (ds_entry id n name itr' l Hid Hn HN Hl) as Q. unfold is_byte in Hn.
        rewrite <- bracketed_ok in Q by lia. change (lit " [") with (lit " " ++ lit "["). rewrite <- !app_assoc. exact Q.
Qed.
Lemma tag_items_run e fuel : forall buf, bytes buf -> (length buf < fuel)%nat -> exists l, tag_items e fuel buf = Ret l /\ tags_shown buf l.
Proof.
  induction fuel as [|fuel IH]; intros buf B L; [lia|]. cbn [tag_items]. destruct (tag_decode_total buf B) as (r & t & E & H). rewrite E. cbn [bind].
  destruct (Z.leb_spec r 0) as [R|R].
  - exists []. split; [reflexivity|]. apply ts_end. intros id rest Hid ->. rewrite tag_decode_complete in E by exact Hid. injection E as <- _. pose proof (identifier_length _ Hid). unfold Zlen in *. lia.
  - destruct (tag_decode_sound buf r t B E R) as (id & rest & -> & Hid & -> & ->). pose proof (identifier_length _ Hid).
    destruct (entry_ok e (be id) 0 ltac:(lia)) as (r & name & k & -> & HN). cbn [bind]. replace (Z.to_nat (Zlen id)) with (length id) by (unfold Zlen; lia). rewrite sub_after. cbn [bind].
    apply bytes_app in B as (_ & B). destruct (IH rest B) as (l & -> & Hl); [rewrite app_length in L; lia|]. cbn [bind]. eexists. split; [reflexivity|].
    unfold field_str. rewrite titled_ok by exact Hid. rewrite app_nil_r. exact (ts_entry id name rest l Hid HN Hl).
Qed.

(** ** Text *)
Lemma trim_front_ok s : exists a, s = a ++ trim_front s /\ Forall space a /\ (trim_front s <> [] -> ~ space (hd 0 (trim_front s))).
Proof.
  induction s as [|c s (a & E & F & N)]; [exists []; split; [reflexivity|]; split; [constructor|contradiction]|]. cbn [trim_front]. destruct (is_space c) eqn:C.
  - exists (c :: a). split; [cbn [app]; now rewrite <- E|]. split; [constructor; [apply is_space_ok, C|exact F]|exact N].
  - exists []. split; [reflexivity|]. split; [constructor|]. intros _ X. apply is_space_ok in X. cbn [hd] in X. congruence.
Qed.
Lemma hd_rev (s : list Z) : hd 0 (rev s) = last s 0.
Proof. destruct s as [|c s] using rev_ind; [reflexivity|]. rewrite rev_app_distr, last_last. reflexivity. Qed.
Lemma trimmed_ok s : trimmed_text s (trimmed s).
Proof.
  destruct (trim_front_ok s) as (a & E & F & N). set (s1 := trim_front s) in *. destruct (trim_front_ok (rev s1)) as (b & E2 & F2 & N2). unfold trimmed. fold s1. set (u := trim_front (rev s1)) in *.
  assert (E1 : s1 = rev u ++ rev b) by (rewrite <- rev_app_distr, <- E2; symmetry; apply rev_involutive).
  exists a, (rev b). split; [rewrite <- E1; exact E|]. split; [exact F|]. split; [apply Forall_rev, F2|]. intros Ne.
  assert (Nu : u <> []) by (intros X; rewrite X in Ne; apply Ne; reflexivity). split.
  - assert (N1 : s1 <> []) by (rewrite E1; intros X; apply app_eq_nil in X as [X _]; exact (Ne X)). specialize (N N1). rewrite E1 in N. destruct (rev u) as [|x l]; [contradiction|]. exact N.
  - specialize (N2 Nu). rewrite <- hd_rev, rev_involutive. exact N2.
Qed.
Lemma hex_spaced_ok v : bytes v -> hex_spaced v = spaced_hex v.
Proof. intros B. unfold hex_spaced, spaced_hex. rewrite <- spaced_ok by exact B. destruct v; reflexivity. Qed.
Lemma simple_ok id v : identifier id -> bytes v -> small v -> simple_str (p_X2 (be id)) (Zlen v) (Some v) = tag_line id v ++ lit " " ++ spaced_hex v.
Proof.
  intros Hid B S. unfold simple_str, tag_line. rewrite tag_hex by exact Hid. rewrite hex_spaced_ok by exact B. rewrite <- bracketed_ok by (pose proof (Zlen_nonneg v); unfold small in S; lia).
  change (lit " : [") with (lit " : " ++ lit "["). now rewrite <- !app_assoc.
Qed.
Lemma simple_node_ok id v : identifier id -> small v -> simple_str (p_X2 (be id)) (Zlen v) None = tag_line id v.
Proof.
  intros Hid S. unfold simple_str, tag_line. rewrite tag_hex by exact Hid. rewrite <- bracketed_ok by (pose proof (Zlen_nonneg v); unfold small in S; lia).
  change (lit " : [") with (lit " : " ++ lit "["). rewrite app_nil_r. now rewrite <- !app_assoc.
Qed.
Lemma decoded_ok id n k s : identifier id -> named_line id n k s (decoded_str (be id) n k s).
Proof.
  intros Hid. unfold decoded_str. destruct n as [n|]; [|rewrite tag_hex by exact Hid; constructor]. rewrite titled_ok by exact Hid. destruct s as [|c s0] eqn:Es.
  - cbn [str_is_list length Nat.eqb negb andb]. rewrite app_nil_r. apply nl_bare. left. reflexivity.
  - rewrite <- Es. assert (NE : s <> []) by (rewrite Es; discriminate). replace (str_is_list s) with (last s 0 =? 10) by (rewrite Es; reflexivity). replace (length s =? 0)%nat with false by (rewrite Es; reflexivity). rewrite andb_true_r.
    destruct (Z.eqb_spec (last s 0) 10) as [L|L]; cbn [negb]; [rewrite app_nil_r; apply nl_bare; right; exact L|].
    assert (K : In k [IsA; IsAN; IsANS] \/ ~ In k [IsA; IsAN; IsANS]) by (cbn [In]; destruct k; auto; right; intuition discriminate). destruct K as [K|K].
    + replace (match k with IsA | IsAN | IsANS => lit " : " ++ [34] ++ s ++ [34] | _ => lit " : " ++ s end) with (lit " : " ++ [34] ++ s ++ [34]) by (cbn [In] in K; destruct K as [<-|[<-|[<-|[]]]]; reflexivity). now apply nl_text.
    + replace (match k with IsA | IsAN | IsANS => lit " : " ++ [34] ++ s ++ [34] | _ => lit " : " ++ s end) with (lit " : " ++ s) by (cbn [In] in K; destruct k; tauto || reflexivity). now apply nl_other.
Qed.
Lemma cstring_app b x s : cstring b = Some s -> p_s (b ++ x) = Ret s.
Proof.
  revert s. induction b as [|c b IH]; intros s H; [discriminate|]. cbn [cstring] in H. cbn [app p_s]. destruct (c =? 0); [now injection H as <-|]. destruct (cstring b) as [t|]; [|discriminate]. injection H as <-. rewrite (IH t eq_refl). reflexivity.
Qed.
Lemma cstring_short b s : cstring b = Some s -> (length s < length b)%nat.
Proof. revert s. induction b as [|c b IH]; intros s H; [discriminate|]. cbn [cstring] in H. destruct (c =? 0); [injection H as <-; cbn [length]; lia|]. destruct (cstring b) as [t|]; [|discriminate]. injection H as <-. specialize (IH t eq_refl). cbn [length]. lia. Qed.

(** ** An item *)
Lemma field_info e tag v : arrays e -> bytes v ->
  (tlv_get_info e tag (Octets v) value_str = UB /\ stray_field tag v value_str) \/
  (~ stray_field tag v value_str /\ exists r n k new s, tlv_get_info e tag (Octets v) value_str = Ret (r, n, k, new) /\ cstring new = Some s /\ has_name tag v n /\ (length s <= Z.to_nat 2047)%nat).
Proof.
  intros A B. pose proof value_str_enough as L. pose proof value_str_length as L2. destruct value_str as [|c t] eqn:Ev; [cbn in L; lia|]. destruct (info_safety e tag v c t A B (or_introl L)) as [(S & E)|(S & (r & n & k & new & E & Hl & I))].
  - left. split; [exact E|exact S].
  - right. split; [exact S|]. destruct (in_cstring new I) as (s & C). exists r, n, k, new, s. split; [exact E|]. split; [exact C|]. split; [exact (proj1 (C105_names _ _ _ _ _ _ _ _ B E))|]. pose proof (cstring_short new s C). cbn [length] in *. lia.
Qed.
Lemma value_str_some : value_str <> [].
Proof. intros E. pose proof value_str_enough as L. rewrite E in L. cbn in L. lia. Qed.
Lemma list_kinds k : In k [IsDol; IsTagList] \/ ~ In k [IsDol; IsTagList].
Proof. cbn [In]. destruct k; auto; right; intuition discriminate. Qed.
Lemma leaf_item e dec off id lf v t : arrays e -> identifier id -> bytes v -> small v -> b_tag t = be id -> b_val t = v -> b_len t = Zlen v -> ber_is_constructed t = false ->
  (tlv_item e dec off (Zlen id + Zlen lf + Zlen v) t = UB /\ unprintable (be id) v value_str) \/
  exists i, tlv_item e dec off (Zlen id + Zlen lf + Zlen v) t = Ret i /\ leaf_shown (describes e value_str) dec off id lf v i.
Proof.
  intros A Hid B S Et Ev El Ec. unfold tlv_item. rewrite Et, Ev, El, Ec. destruct (field_info e (be id) v A B) as [(-> & SF)|(_ & (r & n & k & new & s & E & C & HN & Ls))]; [left; split; [reflexivity|left; exact SF]|].
  rewrite E. cbn [bind]. rewrite (cstring_app new [0] s C). cbn [bind]. rewrite simple_ok by assumption. destruct (C105_lists _ _ _ _ _ _ _ _ E) as (KD & _).
  assert (D : describes e value_str (be id) v k s) by (exists r, n, new; auto). pose proof (decoded_ok id n k s Hid) as DL.
  assert (Raw : raw_item v = line_item (octets_line v) []).
  { unfold raw_item, octets_line. rewrite hex_spaced_ok by exact B. rewrite <- bracketed_ok by (pose proof (Zlen_nonneg v); unfold small in S; lia). change (lit "] ") with (lit "]" ++ lit " "). now rewrite <- !app_assoc. }
  rewrite Raw.
  assert (Fin : forall more, below v k s more -> exists i, Ret (render dec (Item (mkAttr (Some (off, Zlen id + Zlen lf + Zlen v)) false (tag_line id v ++ lit " " ++ spaced_hex v) (decoded_str (be id) n k s) [] false) (line_item (octets_line v) [] :: more))) = Ret i /\ leaf_shown (describes e value_str) dec off id lf v i).
  { intros more Hm. eexists. split; [reflexivity|]. exact (ls_leaf (describes e value_str) dec off id lf v n k s _ more HN D DL Hm). }
  destruct s as [|c s0] eqn:Es.
  - cbn [str_is_list]. assert (K : k = IsDol \/ k = IsTagList \/ ~ In k [IsDol; IsTagList]) by (cbn [In]; destruct k; auto; right; right; intuition discriminate). destruct K as [-> |[-> |N]].
    + destruct (dol_items_run e (Datatypes.S (length v)) v B ltac:(lia)) as [(-> & X)|(l & -> & Hl)]; cbn [bind]; [left; split; [reflexivity|]; right; split; [apply KD; reflexivity|exact X]|]. right. apply Fin. apply bl_dol; [left; reflexivity|exact Hl].
    + destruct (tag_items_run e (Datatypes.S (length v)) v B ltac:(lia)) as (l & -> & Hl). cbn [bind]. right. apply Fin. apply bl_tags; [left; reflexivity|exact Hl].
    + replace (match k with IsDol => _ | IsTagList => _ | _ => Ret [] end) with (Ret (@nil item)) by (cbn [In] in N; destruct k; tauto || reflexivity). cbn [bind]. right. apply Fin. apply bl_none; [exact N|left; reflexivity].
  - rewrite <- Es in *. assert (SN : s <> []) by (rewrite Es; discriminate). assert (N : ~ In k [IsDol; IsTagList]) by (intros I; pose proof (list_empty _ _ _ _ _ _ _ _ value_str_some E I); congruence).
    replace (str_is_list s) with (last s 0 =? 10) by (rewrite Es; reflexivity). right. destruct (Z.eqb_spec (last s 0) 10) as [L|L].
    + cbn [bind]. unfold list_item. rewrite firstn_all2 by exact Ls. apply Fin. apply bl_list; [exact SN|exact L|apply trimmed_ok].
    + replace (match k with IsDol => _ | IsTagList => _ | _ => Ret [] end) with (Ret (@nil item)) by (cbn [In] in N; destruct k; tauto || reflexivity). cbn [bind]. apply Fin. apply bl_none; [exact N|right; exact L].
Qed.
Lemma node_item e dec off len id v t : arrays e -> identifier id -> constructed (hd 0 id) -> bytes v -> small v -> b_tag t = be id -> b_val t = v -> b_len t = Zlen v -> ber_is_constructed t = true ->
  exists n k s d, tlv_item e dec off len t = Ret (Item (field_attr dec off len true (tag_line id v) d) []) /\ has_name (be id) v n /\ describes e value_str (be id) v k s /\ named_line id n k s d.
Proof.
  intros A Hid C B S Et Ev El Ec. unfold tlv_item. rewrite Et, Ev, El, Ec. destruct (field_info e (be id) v A B) as [(_ & SF)|(_ & (r & n & k & new & s & E & Cs & HN & Ls))]; [exfalso; apply stray_tag in SF; exact (node_tag id Hid C SF)|].
  rewrite E. cbn [bind]. rewrite (cstring_app new [0] s Cs). cbn [bind]. rewrite simple_node_ok by assumption. exists n, k, s, (decoded_str (be id) n k s). split; [reflexivity|]. split; [exact HN|]. split; [exists r, n, new; auto|apply decoded_ok, Hid].
Qed.
Lemma padding_item_ok off bad : bytes bad -> small bad -> padding_item off bad = padding_shown off bad.
Proof.
  intros B S. unfold padding_item, padding_shown, simple_str. rewrite hex_spaced_ok by exact B. rewrite <- bracketed_ok by (pose proof (Zlen_nonneg bad); unfold small in S; lia).
  change (lit "Padding : ") with (lit "Padding" ++ lit " : "). change (lit " : [") with (lit " : " ++ lit "["). rewrite <- !app_assoc. reflexivity.
Qed.

(** ** The tree *)
Lemma sub_rest (pre bad : list Z) : sub (pre ++ bad) (Z.to_nat (Zlen pre)) (Z.to_nat (Zlen (pre ++ bad) - Zlen pre)) = Ret bad.
Proof. rewrite Zlen_app3. replace (Z.to_nat (Zlen pre)) with (length pre) by (unfold Zlen; lia). replace (Z.to_nat (Zlen pre + Zlen bad - Zlen pre)) with (length (pre ++ bad) - length pre)%nat by (rewrite app_length; unfold Zlen; lia). apply sub_after. Qed.
Theorem tree_layout e ign dec : arrays e -> forall len off buf ps off' ok, layout ign len off buf ps off' ok -> forall fuel whole pre, whole = pre ++ buf -> Zlen whole = len -> bytes buf -> small buf -> (length buf < fuel)%nat ->
  (tree_walk e fuel ign dec whole buf (Zlen pre) off = UB /\ has_unprintable buf) \/
  exists l, tree_walk e fuel ign dec whole buf (Zlen pre) off = Ret (ok, l, off') /\ tree_shown (describes e value_str) ign dec len off buf l off' ok.
Proof.
  intros A. induction 1 as [len off|len off id lf v rest ps off' ok Hid Hc Hl H IH|len off id lf v rest inner ps off' ok Hid Hc Hl Hi IHi H IH|len off id lf v rest inner off' Hid Hc Hl Hi IHi|len off bad Hn Hp Hb|len off bad Hn Hp];
    intros fuel whole pre Hw Hle B S Hf; (destruct fuel as [|fuel]; [lia|]); cbn [tree_walk].
  - rewrite itr_next_nil. right. exists []. split; [reflexivity|constructor].
  - destruct (bytes_parts _ _ _ _ B) as [Bv Br]. destruct (next_parts id lf v rest Hid Hl Bv S) as (t & -> & Tt & Tv & Tl & _ & C). cbn [bind]. pose proof (id_pos _ Hid) as Pi. pose proof (lf_pos _ _ Hl) as Pl. pose proof (Zlen_nonneg v).
    destruct (Z.leb_spec (Zlen id + Zlen lf + Zlen v) 0); [lia|]. assert (Sv : small v) by (eapply small_le; [exact S|rewrite !app_length; lia]).
    destruct (leaf_item e dec off id lf v t A Hid Bv Sv Tt Tv Tl (C Hc)) as [(-> & U)|(i & -> & Hs)].
    { left. split; [reflexivity|]. exists [], (id ++ lf ++ v), rest, (be id), (class_bits (hd 0 id)), v. split; [cbn [app]; rewrite <- !app_assoc; reflexivity|]. split; [apply encodes_parts; assumption|exact U]. }
    cbn [bind]. rewrite (C Hc). replace (Zlen pre + (Zlen id + Zlen lf + Zlen v)) with (Zlen (pre ++ id ++ lf ++ v)) by (rewrite !Zlen_app3; lia). replace (off + (Zlen id + Zlen lf + Zlen v)) with (off + Zlen id + Zlen lf + Zlen v) by lia.
    destruct (IH fuel whole (pre ++ id ++ lf ++ v)) as [(-> & p1 & en & p2 & tg & fl & vv & E & U)|(l & -> & Hl')]; [rewrite Hw, <- !app_assoc; reflexivity|exact Hle|exact Br|eapply small_le; [exact S|rewrite !app_length; lia]|rewrite !app_length in Hf; unfold Zlen in *; lia| |].
    { left. split; [reflexivity|]. exists (id ++ lf ++ v ++ p1), en, p2, tg, fl, vv. split; [rewrite E, <- !app_assoc; reflexivity|exact U]. }
    right. cbn [bind]. eexists. split; [reflexivity|]. apply tr_leaf; assumption.
  - destruct (bytes_parts _ _ _ _ B) as [Bv Br]. destruct (next_parts id lf v rest Hid Hl Bv S) as (t & -> & Tt & Tv & Tl & C & _). cbn [bind]. pose proof (id_pos _ Hid) as Pi. pose proof (lf_pos _ _ Hl) as Pl. pose proof (Zlen_nonneg v).
    destruct (Z.leb_spec (Zlen id + Zlen lf + Zlen v) 0); [lia|]. assert (Sv : small v) by (eapply small_le; [exact S|rewrite !app_length; lia]).
    destruct (node_item e dec off (Zlen id + Zlen lf + Zlen v) id v t A Hid Hc Bv Sv Tt Tv Tl (C Hc)) as (n & k & s & d & -> & HN & HD & HL). cbn [bind]. rewrite (C Hc), Tv, Tl. unfold ber_itr_init.
    replace (off + (Zlen id + Zlen lf + Zlen v - Zlen v)) with (off + Zlen id + Zlen lf) by lia. pose proof (IHi fuel v []) as QI. change (Zlen []) with 0 in QI.
    destruct QI as [(-> & p1 & en & p2 & tg & fl & vv & E & U)|(l1 & -> & Hl1)]; [reflexivity|reflexivity|exact Bv|exact Sv|rewrite !app_length in Hf; unfold Zlen in *; lia| |].
    { left. split; [reflexivity|]. exists (id ++ lf ++ p1), en, (p2 ++ rest), tg, fl, vv. split; [rewrite E, <- !app_assoc; reflexivity|exact U]. }
    cbn [bind negb]. replace (Zlen pre + (Zlen id + Zlen lf + Zlen v - Zlen v) + Zlen v) with (Zlen (pre ++ id ++ lf ++ v)) by (rewrite !Zlen_app3; lia).
    destruct (IH fuel whole (pre ++ id ++ lf ++ v)) as [(-> & p1 & en & p2 & tg & fl & vv & E & U)|(l & -> & Hl')]; [rewrite Hw, <- !app_assoc; reflexivity|exact Hle|exact Br|eapply small_le; [exact S|rewrite !app_length; lia]|rewrite !app_length in Hf; unfold Zlen in *; lia| |].
    { left. split; [reflexivity|]. exists (id ++ lf ++ v ++ p1), en, p2, tg, fl, vv. split; [rewrite E, <- !app_assoc; reflexivity|exact U]. }
    right. cbn [bind with_kids app]. eexists. split; [reflexivity|]. eapply tr_node; eassumption.
  - destruct (bytes_parts _ _ _ _ B) as [Bv Br]. destruct (next_parts id lf v rest Hid Hl Bv S) as (t & -> & Tt & Tv & Tl & C & _). cbn [bind]. pose proof (id_pos _ Hid) as Pi. pose proof (lf_pos _ _ Hl) as Pl. pose proof (Zlen_nonneg v).
    destruct (Z.leb_spec (Zlen id + Zlen lf + Zlen v) 0); [lia|]. assert (Sv : small v) by (eapply small_le; [exact S|rewrite !app_length; lia]).
    destruct (node_item e dec off (Zlen id + Zlen lf + Zlen v) id v t A Hid Hc Bv Sv Tt Tv Tl (C Hc)) as (n & k & s & d & -> & HN & HD & HL). cbn [bind]. rewrite (C Hc), Tv, Tl. unfold ber_itr_init.
    replace (off + (Zlen id + Zlen lf + Zlen v - Zlen v)) with (off + Zlen id + Zlen lf) by lia. pose proof (IHi fuel v []) as QI. change (Zlen []) with 0 in QI.
    destruct QI as [(-> & p1 & en & p2 & tg & fl & vv & E & U)|(l1 & -> & Hl1)]; [reflexivity|reflexivity|exact Bv|exact Sv|rewrite !app_length in Hf; unfold Zlen in *; lia| |].
    { left. split; [reflexivity|]. exists (id ++ lf ++ p1), en, (p2 ++ rest), tg, fl, vv. split; [rewrite E, <- !app_assoc; reflexivity|exact U]. }
    right. cbn [bind negb with_kids app]. eexists. split; [reflexivity|]. eapply tr_broken; eassumption.
  - destruct (no_object_next bad B S Hn) as (r & R & ->). cbn [bind]. destruct (Z.leb_spec r 0); [|lia]. destruct (Z.ltb_spec r 0); [|lia]. right.
    assert (Zw : Zlen whole = Zlen pre + Zlen bad) by (rewrite Hw; apply Zlen_app3). pose proof (Zlen_nonneg pre). pose proof (Zlen_nonneg bad). assert (LP : looks_padding ign (Zlen whole) (Zlen pre) = true) by (rewrite Hle; replace (Zlen pre) with (len - Zlen bad) by lia; apply (block_padding_ok ign len bad (proj1 Hn) ltac:(lia)); split; assumption).
    rewrite LP. rewrite Hw, sub_rest. cbn [bind]. rewrite padding_item_ok by assumption. replace (Zlen (pre ++ bad) - Zlen pre) with (Zlen bad) by (rewrite Zlen_app3; lia).
    eexists. split; [reflexivity|]. apply tr_pad; assumption.
  - destruct (no_object_next bad B S Hn) as (r & R & ->). cbn [bind]. destruct (Z.leb_spec r 0); [|lia]. destruct (Z.ltb_spec r 0); [|lia]. right.
    assert (Zw : Zlen whole = Zlen pre + Zlen bad) by (rewrite Hw; apply Zlen_app3). pose proof (Zlen_nonneg pre). pose proof (Zlen_nonneg bad). replace (Zlen pre) with (len - Zlen bad) by lia. rewrite Hle.
    destruct (looks_padding ign len (len - Zlen bad)) eqn:E; [exfalso; apply Hp; apply (block_padding_ok ign len bad (proj1 Hn) ltac:(lia)); exact E|].
    eexists. split; [reflexivity|]. apply tr_bad; assumption.
Qed.

(** ** Any data *)
Definition plain_kids (l : list item) : Prop := Forall (fun i => match i with Item a k => a_src a = None /\ Forall (fun j => match j with Item b k' => a_src b = None /\ k' = [] end) k end) l.
Lemma dol_items_plain e fuel : forall buf l, dol_items e fuel buf = Ret l -> Forall (fun j => match j with Item b k' => a_src b = None /\ k' = [] end) l.
Proof.
  induction fuel as [|fuel IH]; intros buf l E; [discriminate|]. cbn [dol_items] in E. destruct (dol_itr_next buf) as [[[r en] itr']| |]; try discriminate. cbn [bind] in E. destruct (r <=? 0); [injection E as <-; constructor|].
  destruct en as [[tag len]|]; [|discriminate]. destruct (tlv_get_info e tag _ _) as [[[[r1 nm] k1] new]| |]; try discriminate. cbn [bind] in E. destruct (dol_items e fuel itr') as [l'| |] eqn:E'; try discriminate. cbn [bind] in E. injection E as <-. constructor; [split; reflexivity|]. eapply IH, E'.
Qed.
Lemma tag_items_plain e fuel : forall buf l, tag_items e fuel buf = Ret l -> Forall (fun j => match j with Item b k' => a_src b = None /\ k' = [] end) l.
Proof.
  induction fuel as [|fuel IH]; intros buf l E; [discriminate|]. cbn [tag_items] in E. destruct (ber_tag_decode buf) as [[r tag]| |]; try discriminate. cbn [bind] in E. destruct (r <=? 0); [injection E as <-; constructor|].
  destruct (tlv_get_info e tag _ _) as [[[[r1 nm] k1] new]| |]; try discriminate. cbn [bind] in E. destruct (sub buf _ _) as [buf'| |]; try discriminate. cbn [bind] in E. destruct (tag_items e fuel buf') as [l'| |] eqn:E'; try discriminate. cbn [bind] in E. injection E as <-. constructor; [split; reflexivity|]. eapply IH, E'.
Qed.
(** An item before it is rendered. *)
Lemma tlv_item_raw e t : (forall dec off len, tlv_item e dec off len t = UB) \/ (forall dec off len, tlv_item e dec off len t = NoFuel) \/
  exists sm dc kids, (forall dec off len, tlv_item e dec off len t = Ret (render dec (Item (mkAttr (Some (off, len)) (ber_is_constructed t) sm dc [] false) kids))) /\ plain_kids kids /\ (ber_is_constructed t = true -> kids = []).
Proof.
  unfold tlv_item. destruct (tlv_get_info e (b_tag t) (Octets (b_val t)) value_str) as [[[[r n] k] str]| |]; cbn [bind]; [|left; reflexivity|right; left; reflexivity].
  destruct (p_s (str ++ [0])) as [s| |]; cbn [bind]; [|left; reflexivity|right; left; reflexivity].
  destruct (ber_is_constructed t); [right; right; cbn [bind]; eexists _, _, []; split; [reflexivity|]; split; [constructor|reflexivity]|].
  assert (P0 : forall more, plain_kids more -> plain_kids (raw_item (b_val t) :: more)) by (intros more Hm; constructor; [split; [reflexivity|constructor]|exact Hm]).
  assert (P1 : plain_kids [raw_item (b_val t)]) by (apply P0; constructor).
  destruct (str_is_list s); [right; right; cbn [bind]; eexists _, _, _; split; [reflexivity|]; split; [apply P0; constructor; [split; [reflexivity|constructor]|constructor]|discriminate]|].
  destruct k; cbn [bind]; try (right; right; eexists _, _, _; split; [reflexivity|]; split; [exact P1|discriminate]).
  - destruct (dol_items e _ (b_val t)) as [l| |] eqn:E; cbn [bind]; [|left; reflexivity|right; left; reflexivity]. right; right. eexists _, _, _. split; [reflexivity|]. split; [|discriminate]. apply P0. constructor; [|constructor]. split; [reflexivity|]. eapply dol_items_plain, E.
  - destruct (tag_items e _ (b_val t)) as [l| |] eqn:E; cbn [bind]; [|left; reflexivity|right; left; reflexivity]. right; right. eexists _, _, _. split; [reflexivity|]. split; [|discriminate]. apply P0. constructor; [|constructor]. split; [reflexivity|]. eapply tag_items_plain, E.
Qed.
Lemma plain_no_fields l : plain_kids l -> flat_map fields_in l = [].
Proof.
  induction 1 as [|[a k] l [Ha Hk] F IH]; [reflexivity|]. cbn [flat_map fields_in]. rewrite Ha, IH, app_nil_r. induction Hk as [|[b k'] k [Hb ->] Fk IHk]; [reflexivity|]. cbn [flat_map fields_in]. rewrite Hb. exact IHk.
Qed.
Lemma hidden_plain h l : plain_kids l -> plain_kids (map (fun k => match k with Item b ks => Item (set_hidden h b) ks end) l).
Proof. induction 1 as [|[a k] l [Ha Hk] F IH]; [constructor|]. cbn [map]. constructor; [split; assumption|exact IH]. Qed.
Lemma rendered_fields dec a kids : plain_kids kids -> fields_in (render dec (Item a kids)) = match a_src a with Some p => [p] | None => [] end.
Proof.
  intros P. unfold render. cbn [fields_in]. unfold set_text. cbn [a_src]. assert (E : flat_map fields_in (if a_cons a then kids else map (fun k => match k with Item b ks => Item (set_hidden (negb dec) b) ks end) kids) = []) by (destruct (a_cons a); apply plain_no_fields; [exact P|apply hidden_plain, P]).
  rewrite E. destruct (a_src a); reflexivity.
Qed.

(** ** Showing the decoded fields, or not *)
Lemma visit_plain dec h l : plain_kids l -> map (visit_item dec (Some h)) l = map (fun k => match k with Item b ks => Item (set_hidden h b) ks end) l.
Proof.
  induction 1 as [|[a k] l [Ha Hk] F IH]; [reflexivity|]. cbn [map]. rewrite IH. f_equal. cbn [visit_item]. unfold set_hidden at 1. cbn [a_src]. rewrite Ha. f_equal.
  induction Hk as [|[b k'] k [Hb ->] Fk IHk]; [reflexivity|]. cbn [map]. rewrite IHk. f_equal. cbn [visit_item]. rewrite Hb. reflexivity.
Qed.
Lemma hide_twice h h' l : map (fun k => match k with Item b ks => Item (set_hidden h b) ks end) (map (fun k => match k with Item b ks => Item (set_hidden h' b) ks end) l) = map (fun k => match k with Item b ks => Item (set_hidden h b) ks end) l.
Proof. rewrite map_map. apply map_ext. intros [b ks]. reflexivity. Qed.
Lemma visit_rendered dec dec' a kids : a_src a <> None -> plain_kids kids -> (a_cons a = true -> kids = []) -> visit_item dec' None (render dec (Item a kids)) = render dec' (Item a kids).
Proof.
  intros N P C. unfold render. cbn [visit_item]. unfold set_text at 1. cbn [a_src a_cons]. destruct (a_src a) as [p|] eqn:E; [|contradiction]. f_equal.
  unfold set_text. cbn [a_src a_cons]. destruct (a_cons a); [rewrite (C eq_refl); reflexivity|]. rewrite visit_plain by (apply hidden_plain, P). apply hide_twice.
Qed.
Lemma visit_tlv e dec dec' off len t : tlv_item e dec' off len t = (let* i := tlv_item e dec off len t in Ret (visit_item dec' None i)).
Proof.
  destruct (tlv_item_raw e t) as [U|[U|(sm & dc & kids & U & P & C)]]; rewrite !U; try reflexivity. cbn [bind]. rewrite visit_rendered; [reflexivity|discriminate|exact P|exact C].
Qed.
Lemma visit_with_kids dec i l : a_src (i_attr i) <> None -> a_cons (i_attr i) = true -> visit_item dec None (with_kids i l) = with_kids (visit_item dec None i) (map (visit_item dec None) l).
Proof. destruct i as [a k]. cbn [i_attr with_kids visit_item]. destruct (a_src a); [|contradiction]. intros _ ->. cbn [with_kids]. now rewrite map_app. Qed.
Lemma tlv_item_attr e dec off len t i : tlv_item e dec off len t = Ret i -> a_src (i_attr i) = Some (off, len) /\ a_cons (i_attr i) = ber_is_constructed t.
Proof. destruct (tlv_item_raw e t) as [U|[U|(sm & dc & kids & U & P & C)]]; rewrite U; intros E; try discriminate. injection E as <-. split; reflexivity. Qed.
Theorem tree_toggle e ign dec dec' : forall fuel whole itr valid total, tree_walk e fuel ign dec' whole itr valid total = (let* (ok, l, total') := tree_walk e fuel ign dec whole itr valid total in Ret (ok, set_decode_fields dec' l, total')).
Proof.
  induction fuel as [|fuel IH]; intros whole itr valid total; [reflexivity|]. cbn [tree_walk]. destruct (ber_itr_next itr) as [[[r t] itr']| |]; cbn [bind]; try reflexivity.
  destruct (r <=? 0). { destruct (r <? 0); [|reflexivity]. destruct (looks_padding ign (Zlen whole) valid); [|reflexivity]. destruct (sub whole _ _) as [bad| |]; try reflexivity. cbn [bind]. destruct dec'; reflexivity. }
  destruct t as [t|]; [|reflexivity]. rewrite (visit_tlv e dec dec'). destruct (tlv_item e dec total r t) as [i| |] eqn:Ei; cbn [bind]; try reflexivity. destruct (tlv_item_attr _ _ _ _ _ _ Ei) as [As Ac].
  destruct (ber_is_constructed t).
  - rewrite (IH (b_val t)). destruct (tree_walk e fuel ign dec (b_val t) _ _ _) as [[[ok l] t2]| |]; cbn [bind]; try reflexivity.
    assert (V : visit_item dec' None (with_kids i l) = with_kids (visit_item dec' None i) (set_decode_fields dec' l)) by (apply visit_with_kids; [congruence|exact Ac]).
    destruct ok; cbn [negb]; [|cbn [bind]; unfold set_decode_fields; cbn [map]; rewrite V; reflexivity]. rewrite (IH whole). destruct (tree_walk e fuel ign dec whole _ _ _) as [[[ok l'] t3]| |]; cbn [bind]; try reflexivity. unfold set_decode_fields at 2 3. cbn [map]. rewrite V. reflexivity.
  - rewrite (IH whole). destruct (tree_walk e fuel ign dec whole _ _ _) as [[[ok l'] t3]| |]; cbn [bind]; reflexivity.
Qed.
Theorem populate_toggle e ign dec dec' data : populate e ign dec' data = (let* (l, total) := populate e ign dec data in Ret (set_decode_fields dec' l, total)).
Proof. unfold populate. rewrite (tree_toggle e ign dec dec'). destruct (tree_walk e _ ign dec data _ 0 0) as [[[ok l] t]| |]; reflexivity. Qed.

(** ** The tree and the highlighting *)
Lemma with_kids_fields e dec off len t i l : tlv_item e dec off len t = Ret i -> fields_in (with_kids i l) = (off, len) :: flat_map fields_in l /\ fields_in i = [(off, len)].
Proof.
  destruct (tlv_item_raw e t) as [U|[U|(sm & dc & kids & U & P & C)]]; rewrite U; intros E; try discriminate. injection E as <-. pose proof (rendered_fields dec (mkAttr (Some (off, len)) (ber_is_constructed t) sm dc [] false) kids P) as R.
  split; [|exact R]. unfold render in *. cbn [fields_in with_kids] in *. unfold set_text in *. cbn [a_src a_cons] in *. injection R as R. rewrite flat_map_app, R. reflexivity.
Qed.
Theorem tree_any e ign dec : arrays e -> forall fuel data P Q whole itr valid total, data = P ++ itr ++ Q -> Zlen P = total -> (exists pre, whole = pre ++ itr /\ Zlen pre = valid) ->
  bytes itr -> small itr -> (length itr < fuel)%nat ->
  (tree_walk e fuel ign dec whole itr valid total = UB /\ has_unprintable itr) \/
  exists ok l ms total', tree_walk e fuel ign dec whole itr valid total = Ret (ok, l, total') /\ ber_walk fuel ign whole itr valid total = Ret (ok, ms, total') /\ (ok = true -> total' = total + Zlen itr) /\
    map begins ms = map fst (flat_map fields_in l) /\ Forall (field_at data) (flat_map fields_in l).
Proof.
  intros A. induction fuel as [|fuel IH]; intros data P Q whole itr valid total Hd Hp Hv Hbi Hsi Hf; [lia|]. cbn [tree_walk ber_walk].
  destruct (itr_next_step itr Hbi Hsi) as (r & t & Ed & Hok & En). rewrite En; cbn [bind]. destruct Hv as (pre & Hw & Hpre). assert (Zw : Zlen whole = valid + Zlen itr) by (rewrite Hw, Zlen_app3; lia).
  destruct (Z.leb_spec r 0) as [Hr|Hr].
  { right. destruct (Z.ltb_spec r 0) as [Hn|Hn].
    - destruct (looks_padding ign (Zlen whole) valid) eqn:E.
      + rewrite <- Hpre. rewrite Hw, sub_rest. cbn [bind]. replace (Zlen (pre ++ itr) - Zlen pre) with (Zlen itr) by (rewrite Zlen_app3; lia). eexists _, _, _, _. split; [reflexivity|]. split; [reflexivity|]. split; [reflexivity|].
        split; [reflexivity|]. cbn [flat_map fields_in padding_item render set_text a_src a_cons map app]. constructor; [|constructor]. exists P, itr, Q. cbn [fst snd]. split; [exact Hd|]. split; [exact Hp|]. split; [reflexivity|].
        assert (NE : itr <> []). { intros ->. unfold looks_padding in E. rewrite Zw in E. change (Zlen []) with 0 in E. replace (valid + 0 - valid) with 0 in E by lia. rewrite andb_false_r in E. discriminate. }
        destruct (bad_cases itr Hbi Hsi NE) as [N|X]; [intros r' t' i' E'; rewrite En in E'; injection E' as <- _ _; exact Hr|right; right; exact N|right; left; exact X].
      + eexists _, _, _, _. split; [reflexivity|]. split; [reflexivity|]. split; [discriminate|]. split; [reflexivity|constructor].
    - assert (r = 0) as -> by lia. assert (itr = []) as -> by (apply (decode_err_nonempty 0 itr t Hbi Hsi Ed); reflexivity).
      eexists _, _, _, _. split; [reflexivity|]. split; [reflexivity|]. change (Zlen []) with 0. split; [lia|]. split; [reflexivity|constructor]. }
  destruct t as [t|]; cbn [ber_ok] in Hok; [|lia].
  destruct (decode_piece itr r t Hbi Hsi Ed) as [Hpc Hlen].
  set (p := firstn (Z.to_nat r) itr) in *. set (rest := skipn (Z.to_nat r) itr) in *.
  assert (Eitr : itr = p ++ rest) by (symmetry; apply firstn_skipn).
  assert (Hlp : length p = Z.to_nat r) by (apply firstn_length_le; lia).
  assert (St : stands_for p). { destruct Hpc as [[He _]|(id & Ep & Hid & Hc & _)]; [left; eauto|right; left; eauto]. }
  destruct (piece_cases p t) as (Hl & Hfb & Hvb & Hvl & Hprim & Hcons); auto.
  { subst p. auto. }
  assert (Hlr : length rest = (length itr - Z.to_nat r)%nat) by (subst rest; apply skipn_length).
  assert (Hbr : bytes rest) by (subst rest; auto).
  assert (Hsr : small rest) by (eapply small_le; [exact Hsi|lia]).
  assert (Zr : Zlen itr = r + Zlen rest) by (unfold Zlen; lia). assert (Zp : Zlen p = r) by (unfold Zlen; lia).
  assert (Hvs : small (b_val t)) by (eapply small_le; [exact Hsi|lia]).
  assert (Fa : field_at data (total, r)) by (exists P, p, (rest ++ Q); cbn [fst snd]; split; [rewrite Hd, Eitr, <- !app_assoc; reflexivity|auto]).
  destruct (ber_is_constructed t) eqn:Ec.
  - destruct (Hcons eq_refl) as (id & lf & Ep & Hid & Hc & Ht & Hlf).
    destruct (node_item e dec total r id (b_val t) t A Hid Hc Hvb Hvs Ht eq_refl Hl Ec) as (n & k & s & d & Ei & _). rewrite Ei. cbn [bind]. change (ber_itr_init (b_val t)) with (b_val t).
    assert (Zp' : r = Zlen id + Zlen lf + Zlen (b_val t)) by (rewrite <- Zp, Ep, !Zlen_app3; lia).
    destruct (IH data (P ++ id ++ lf) (rest ++ Q) (b_val t) (b_val t) 0 (total + (r - b_len t))) as [(-> & p1 & en & p2 & tg & fl & vv & E & U)|(ok & l & ms & t2 & -> & -> & O2 & M2 & F2)]; [rewrite Hd, Eitr, Ep, <- !app_assoc; reflexivity|rewrite !Zlen_app3; lia|exists []; split; reflexivity|exact Hvb|exact Hvs|lia| |].
    { left. split; [reflexivity|]. exists (id ++ lf ++ p1), en, (p2 ++ rest), tg, fl, vv. split; [rewrite Eitr, Ep, E, <- !app_assoc; reflexivity|exact U]. }
    cbn [bind]. destruct (with_kids_fields e dec total r t _ l Ei) as [Wk _]. destruct ok; cbn [negb].
    + specialize (O2 eq_refl). destruct (IH data (P ++ p) Q whole rest (valid + (r - b_len t) + b_len t) t2) as [(-> & p1 & en & p2 & tg & fl & vv & E & U)|(ok & l' & ms' & t3 & -> & -> & O3 & M3 & F3)]; [rewrite Hd, Eitr, <- !app_assoc; reflexivity|rewrite Zlen_app3; lia|exists (pre ++ p); split; [rewrite Hw, Eitr, <- app_assoc; reflexivity|rewrite Zlen_app3; lia]|exact Hbr|exact Hsr|lia| |].
      { left. split; [reflexivity|]. exists (p ++ p1), en, p2, tg, fl, vv. split; [rewrite Eitr, E, <- !app_assoc; reflexivity|exact U]. }
      right. cbn [bind]. eexists _, _, _, _. split; [reflexivity|]. split; [reflexivity|]. split; [intros E; specialize (O3 E); lia|]. cbn [flat_map]. rewrite Wk. split; [cbn [map begins app fst]; rewrite !map_app, M2, M3; reflexivity|].
      cbn [app]. constructor; [exact Fa|]. apply Forall_app. split; assumption.
    + right. eexists _, _, _, _. split; [reflexivity|]. split; [reflexivity|]. split; [discriminate|]. cbn [flat_map]. rewrite Wk, app_nil_r. split; [cbn [map begins fst]; rewrite M2; reflexivity|constructor; assumption].
  - destruct (Hprim eq_refl) as (He & _). assert (He' := He). destruct He as [_ (id & lf & Ep & Hid & Ht & Hlf & _)]. assert (Zp' : r = Zlen id + Zlen lf + Zlen (b_val t)) by (rewrite <- Zp, Ep, !Zlen_app3; lia).
    destruct (leaf_item e dec total id lf (b_val t) t A Hid Hvb Hvs Ht eq_refl Hl Ec) as [(Ei & U)|(i & Ei & Hs)]; rewrite <- Zp' in Ei; rewrite Ei.
    { left. split; [reflexivity|]. exists [], p, rest, (b_tag t), (b_flags t), (b_val t). split; [exact Eitr|]. split; [exact He'|]. rewrite Ht. exact U. }
    cbn [bind]. destruct (with_kids_fields e dec total r t _ [] Ei) as [_ Wk].
    destruct (IH data (P ++ p) Q whole rest (valid + r) (total + r)) as [(-> & p1 & en & p2 & tg & fl & vv & E & U)|(ok & l' & ms' & t3 & -> & -> & O3 & M3 & F3)]; [rewrite Hd, Eitr, <- !app_assoc; reflexivity|rewrite Zlen_app3; lia|exists (pre ++ p); split; [rewrite Hw, Eitr, <- app_assoc; reflexivity|rewrite Zlen_app3; lia]|exact Hbr|exact Hsr|lia| |].
    { left. split; [reflexivity|]. exists (p ++ p1), en, p2, tg, fl, vv. split; [rewrite Eitr, E, <- !app_assoc; reflexivity|exact U]. }
    right. cbn [bind]. eexists _, _, _, _. split; [reflexivity|]. split; [reflexivity|]. split; [intros E; specialize (O3 E); lia|]. cbn [flat_map]. rewrite Wk. split; [cbn [map begins app fst]; rewrite M3; reflexivity|]. cbn [app]. constructor; assumption.
Qed.
