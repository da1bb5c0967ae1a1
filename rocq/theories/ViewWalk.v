(** The walk over the data: layout, places of tags, valid octets. *)
From Coq Require Import String Sorting.Sorted.
From Verif Require Import Base BaseLemmas BerModel BerSpec BerProofs TlvModel TlvSpec TlvProofs ToolsModel ToolsProofs PrintSpec PrintProofs ViewModel ViewSpec.
Open Scope Z_scope.
Open Scope list_scope.
Notation length := List.length.

Lemma Zlen_app3 {A} (a b : list A) : Zlen (a ++ b) = Zlen a + Zlen b.
Proof. unfold Zlen. rewrite app_length. lia. Qed.
Lemma block_padding_ok ign len (bad : list Z) : bad <> [] -> 0 <= len -> looks_padding ign len (len - Zlen bad) = true <-> (ign = true /\ block_padding len (Zlen bad)).
Proof.
  intros NE L. unfold looks_padding, block_padding. replace (len - (len - Zlen bad)) with (Zlen bad) by lia. rewrite land_7, land_F by exact L.
  assert (0 < Zlen bad) by (destruct bad; [contradiction|unfold Zlen; cbn [length]; lia]). destruct ign; [|split; [discriminate|intros [? _]; discriminate]].
  destruct (Z.ltb_spec 0 (Zlen bad)); [|lia]. cbn [andb]. split; [intros E; split; [reflexivity|]; lia|intros [_ E]; lia].
Qed.
Lemma tag_digits_ok id : identifier id -> tag_digits (be id) = Zlen id.
Proof.
  intros H. destruct H as [b Hb H|b0 more last Hb0 H31 Hm Hl Hlen].
  - change (be [b]) with b. unfold is_byte in Hb. unfold tag_digits. destruct (Z.leb_spec b 255); [reflexivity|lia].
  - pose proof (Z.mod_le b0 32 ltac:(unfold is_byte in Hb0; lia) ltac:(lia)) as B. unfold is_byte in Hb0.
    rewrite be_cons. assert (By : bytes (more ++ [last])). { apply bytes_app_intro; [eapply Forall_impl; [|exact Hm]; unfold is_byte; cbn; lia|repeat constructor; unfold is_byte; lia]. }
    pose proof (be_range _ By) as R. unfold tag_digits. assert (Lm : Zlen (more ++ [last]) = Zlen more + 1) by (rewrite Zlen_app3; reflexivity). replace (Zlen (b0 :: more ++ [last])) with (Zlen (more ++ [last]) + 1) by (unfold Zlen; cbn [length]; lia).
    rewrite Lm in *. clear Lm. destruct more as [|m1 [|m2 [|]]]; cbn [length] in Hlen; [| | |lia].
    + change (Zlen []) with 0 in *. change (256 ^ (0 + 1)) with 256 in *. destruct (Z.leb_spec (b0 * 256 + be ([] ++ [last])) 255); [lia|]. destruct (Z.leb_spec (b0 * 256 + be ([] ++ [last])) 65535); lia.
    + change (Zlen [m1]) with 1 in *. change (256 ^ (1 + 1)) with 65536 in *. set (x := be ([m1] ++ [last])) in *. destruct (Z.leb_spec (b0 * 65536 + x) 255); [lia|]. destruct (Z.leb_spec (b0 * 65536 + x) 65535); [lia|]. destruct (Z.leb_spec (b0 * 65536 + x) 16777215); lia.
    + change (Zlen [m1; m2]) with 2 in *. change (256 ^ (2 + 1)) with 16777216 in *. set (x := be ([m1; m2] ++ [last])) in *. destruct (Z.leb_spec (b0 * 16777216 + x) 255); [lia|]. destruct (Z.leb_spec (b0 * 16777216 + x) 65535); [lia|]. destruct (Z.leb_spec (b0 * 16777216 + x) 16777215); lia.
Qed.
Lemma encodes_parts id lf v : identifier id -> length_octets lf (Zlen v) -> bytes v -> encodes (id ++ lf ++ v) (be id) (class_bits (hd 0 id)) v.
Proof. intros Hid Hl B. split; [exact B|]. exists id, lf. auto. Qed.
Lemma next_parts id lf v rest : identifier id -> length_octets lf (Zlen v) -> bytes v -> small (id ++ lf ++ v ++ rest) ->
  exists t, ber_itr_next (id ++ lf ++ v ++ rest) = Ret (Zlen id + Zlen lf + Zlen v, Some t, rest) /\ b_tag t = be id /\ b_val t = v /\ b_len t = Zlen v /\
    (constructed (hd 0 id) -> ber_is_constructed t = true) /\ (~ constructed (hd 0 id) -> ber_is_constructed t = false).
Proof.
  intros Hid Hl B S. pose proof (encodes_parts id lf v Hid Hl B) as E. replace (id ++ lf ++ v ++ rest) with ((id ++ lf ++ v) ++ rest) in * by (rewrite <- !app_assoc; reflexivity).
  destruct (itr_next_encodes _ _ _ _ rest E S) as (off & ->). eexists. split; [rewrite !Zlen_app3, Z.add_assoc; reflexivity|]. cbn [b_tag b_val b_len]. split; [reflexivity|]. split; [reflexivity|]. split; [reflexivity|].
  pose proof (encodes_flags _ _ _ _ E) as Fb. split; intros C.
  - apply cons_flag; cbn [b_flags]; [exact Fb|]. now apply (constructed_flag id Hid).
  - apply prim_flag; cbn [b_flags]; [exact Fb|]. pose proof (Z.mod_pos_bound (class_bits (hd 0 id) / 32) 2 ltac:(lia)). destruct (Z.eq_dec ((class_bits (hd 0 id) / 32) mod 2) 1) as [Q|Q]; [|lia].
    exfalso. apply C. now apply (constructed_flag id Hid).
Qed.
Lemma bytes_split (a b : list Z) : bytes (a ++ b) -> bytes a /\ bytes b.
Proof. apply Forall_app. Qed.
Lemma bytes_parts id lf v rest : bytes (id ++ lf ++ v ++ rest) -> bytes v /\ bytes rest.
Proof. intros B. apply bytes_split in B as [_ B]. apply bytes_split in B as [_ B]. apply bytes_split in B. exact B. Qed.
Lemma id_pos id : identifier id -> 1 <= Zlen id.
Proof. intros H. pose proof (identifier_length _ H). unfold Zlen. lia. Qed.
Lemma lf_pos lf n : length_octets lf n -> 1 <= Zlen lf.
Proof. intros H. destruct H as [? H|ls B H]; unfold Zlen; cbn [length]; lia. Qed.

(** Data with a layout. *)
Theorem walk_layout ign : forall len off buf ps off' ok, layout ign len off buf ps off' ok -> forall fuel whole, Zlen whole = len -> Zlen buf <= len -> bytes buf -> small buf -> (length buf < fuel)%nat ->
  exists ms, ber_walk fuel ign whole buf (len - Zlen buf) off = Ret (ok, ms, off') /\ Forall2 mark_at ms ps.
Proof.
  induction 1 as [len off|len off id lf v rest ps off' ok Hid Hc Hl H IH|len off id lf v rest inner ps off' ok Hid Hc Hl Hi IHi H IH|len off id lf v rest inner off' Hid Hc Hl Hi IHi|len off bad Hn Hp Hb|len off bad Hn Hp];
    intros fuel whole Hw Hle B S Hf; (destruct fuel as [|fuel]; [lia|]); cbn [ber_walk].
  - rewrite itr_next_nil. exists []. split; [reflexivity|constructor].
  - destruct (bytes_parts _ _ _ _ B) as [Bv Br]. destruct (next_parts id lf v rest Hid Hl Bv S) as (t & -> & Tt & Tv & Tl & _ & C). cbn [bind]. pose proof (id_pos _ Hid) as Pi. pose proof (lf_pos _ _ Hl) as Pl. pose proof (Zlen_nonneg v).
    destruct (Z.leb_spec (Zlen id + Zlen lf + Zlen v) 0); [lia|]. rewrite (C Hc).
    destruct (IH fuel whole Hw) as (ms & E & F); [rewrite !Zlen_app3 in Hle; lia|exact Br|eapply small_le; [exact S|rewrite !app_length; lia]|rewrite !app_length in Hf; unfold Zlen in *; lia|].
    replace (len - Zlen (id ++ lf ++ v ++ rest) + (Zlen id + Zlen lf + Zlen v)) with (len - Zlen rest) by (rewrite !Zlen_app3; lia). replace (off + (Zlen id + Zlen lf + Zlen v)) with (off + Zlen id + Zlen lf + Zlen v) by lia. rewrite E. cbn [bind].
    eexists. split; [reflexivity|]. constructor; [|exact F]. cbn [mark_at]. split; [reflexivity|]. rewrite Tt. apply tag_digits_ok, Hid.
  - destruct (bytes_parts _ _ _ _ B) as [Bv Br]. destruct (next_parts id lf v rest Hid Hl Bv S) as (t & -> & Tt & Tv & Tl & C & _). cbn [bind]. pose proof (id_pos _ Hid) as Pi. pose proof (lf_pos _ _ Hl) as Pl. pose proof (Zlen_nonneg v).
    destruct (Z.leb_spec (Zlen id + Zlen lf + Zlen v) 0); [lia|]. rewrite (C Hc), Tv, Tl. unfold ber_itr_init.
    destruct (IHi fuel v eq_refl) as (ms1 & E1 & F1); [lia|exact Bv|eapply small_le; [exact S|rewrite !app_length; lia]|rewrite !app_length in Hf; unfold Zlen in *; lia|].
    rewrite Z.sub_diag in E1. replace (off + (Zlen id + Zlen lf + Zlen v - Zlen v)) with (off + Zlen id + Zlen lf) by lia. rewrite E1. cbn [bind negb].
    destruct (IH fuel whole Hw) as (ms & E & F); [rewrite !Zlen_app3 in Hle; lia|exact Br|eapply small_le; [exact S|rewrite !app_length; lia]|rewrite !app_length in Hf; unfold Zlen in *; lia|].
    replace (len - Zlen (id ++ lf ++ v ++ rest) + (Zlen id + Zlen lf + Zlen v - Zlen v) + Zlen v) with (len - Zlen rest) by (rewrite !Zlen_app3; lia). rewrite E. cbn [bind].
    eexists. split; [reflexivity|]. constructor; [|apply Forall2_app; [exact F1|exact F]]. cbn [mark_at]. split; [reflexivity|]. rewrite Tt. apply tag_digits_ok, Hid.
  - destruct (bytes_parts _ _ _ _ B) as [Bv Br]. destruct (next_parts id lf v rest Hid Hl Bv S) as (t & -> & Tt & Tv & Tl & C & _). cbn [bind]. pose proof (id_pos _ Hid) as Pi. pose proof (lf_pos _ _ Hl) as Pl. pose proof (Zlen_nonneg v).
    destruct (Z.leb_spec (Zlen id + Zlen lf + Zlen v) 0); [lia|]. rewrite (C Hc), Tv, Tl. unfold ber_itr_init.
    destruct (IHi fuel v eq_refl) as (ms1 & E1 & F1); [lia|exact Bv|eapply small_le; [exact S|rewrite !app_length; lia]|rewrite !app_length in Hf; unfold Zlen in *; lia|].
    rewrite Z.sub_diag in E1. replace (off + (Zlen id + Zlen lf + Zlen v - Zlen v)) with (off + Zlen id + Zlen lf) by lia. rewrite E1. cbn [bind negb].
    eexists. split; [reflexivity|]. constructor; [|exact F1]. cbn [mark_at]. split; [reflexivity|]. rewrite Tt. apply tag_digits_ok, Hid.
  - destruct (no_object_next bad B S Hn) as (r & R & ->). cbn [bind]. destruct (Z.leb_spec r 0); [|lia]. destruct (Z.ltb_spec r 0); [|lia]. rewrite Hw.
    rewrite (proj2 (block_padding_ok ign len bad (proj1 Hn) ltac:(pose proof (Zlen_nonneg bad); lia)) (conj Hp Hb)). replace (len - (len - Zlen bad)) with (Zlen bad) by lia.
    eexists. split; [reflexivity|]. constructor; [|constructor]. split; reflexivity.
  - destruct (no_object_next bad B S Hn) as (r & R & ->). cbn [bind]. destruct (Z.leb_spec r 0); [|lia]. destruct (Z.ltb_spec r 0); [|lia]. rewrite Hw.
    destruct (looks_padding ign len (len - Zlen bad)) eqn:E; [exfalso; apply Hp; apply (block_padding_ok ign len bad (proj1 Hn) ltac:(pose proof (Zlen_nonneg bad); lia)); exact E|].
    eexists. split; [reflexivity|constructor].
Qed.

(** ** Any data *)
(** Where a mark is in data: the octets of a tag, or padding, before [lim]. *)
Definition mark_in (data : list Z) (lim : Z) (m : mark) : Prop :=
  match m with
  | Tag off tag => exists pre id post, data = pre ++ id ++ post /\ Zlen pre = off /\ identifier id /\ be id = tag /\ off + Zlen id <= lim
  | Pad off n => 0 <= off /\ 0 < n /\ off + n <= lim
  end.
Lemma mark_in_le data lim lim' m : lim <= lim' -> mark_in data lim m -> mark_in data lim' m.
Proof. intros L. destruct m as [off tag|off n]; cbn [mark_in]; [intros (pre & id & post & A & B & C & D & E); exists pre, id, post; repeat (split; [assumption|]); lia|intros (A & B & C); repeat split; lia]. Qed.
Lemma sorted_app (a b : list Z) : StronglySorted Z.lt a -> StronglySorted Z.lt b -> (forall x y, In x a -> In y b -> x < y) -> StronglySorted Z.lt (a ++ b).
Proof.
  induction 1 as [|x a Sa IH Fa]; intros Sb H; [exact Sb|]. cbn [app]. constructor.
  - apply IH; [exact Sb|]. intros; apply H; [right; assumption|assumption].
  - apply Forall_app. split; [exact Fa|]. apply Forall_forall. intros y Hy. apply H; [left; reflexivity|exact Hy].
Qed.
Theorem walk_any ign : forall fuel data P Q whole itr valid total, data = P ++ itr ++ Q -> Zlen P = total -> valid + Zlen itr = Zlen whole ->
  bytes itr -> small itr -> (length itr < fuel)%nat ->
  exists ok ms total', ber_walk fuel ign whole itr valid total = Ret (ok, ms, total') /\ total <= total' <= total + Zlen itr /\ (ok = true -> total' = total + Zlen itr) /\
    Forall (mark_in data total') ms /\ Forall (fun m => total <= begins m < total') ms /\ StronglySorted Z.lt (map begins ms).
Proof.
  induction fuel as [|fuel IH]; intros data P Q whole itr valid total Hd Hp Hv Hbi Hsi Hf; [lia|]. cbn [ber_walk].
  destruct (itr_next_step itr Hbi Hsi) as (r & t & Ed & Hok & En). rewrite En; cbn [bind]. pose proof (Zlen_nonneg P) as P0. pose proof (Zlen_nonneg itr) as I0.
  destruct (Z.leb_spec r 0) as [Hr|Hr].
  { destruct (Z.ltb_spec r 0) as [Hn|Hn].
    - destruct (looks_padding ign (Zlen whole) valid) eqn:E.
      + replace (Zlen whole - valid) with (Zlen itr) by lia. assert (0 < Zlen itr). { unfold looks_padding in E. apply andb_prop in E as [E _]. apply andb_prop in E as [_ E]. apply Z.ltb_lt in E. lia. }
        eexists _, _, _. split; [reflexivity|]. split; [lia|]. split; [lia|]. split; [repeat constructor; cbn [mark_in]; lia|]. split; [repeat constructor; cbn [begins]; lia|]. repeat constructor.
      + eexists _, _, _. split; [reflexivity|]. split; [lia|]. split; [discriminate|]. repeat constructor.
    - assert (r = 0) as -> by lia. assert (itr = []) as -> by (apply (decode_err_nonempty 0 itr t Hbi Hsi Ed); reflexivity).
      eexists _, _, _. split; [reflexivity|]. change (Zlen []) with 0. split; [lia|]. split; [lia|]. repeat constructor. }
  destruct t as [t|]; cbn [ber_ok] in Hok; [|lia].
  destruct (decode_piece itr r t Hbi Hsi Ed) as [Hpc Hlen].
  set (p := firstn (Z.to_nat r) itr) in *. set (rest := skipn (Z.to_nat r) itr) in *.
  assert (Eitr : itr = p ++ rest) by (symmetry; apply firstn_skipn).
  assert (Hlp : length p = Z.to_nat r) by (apply firstn_length_le; lia).
  destruct (piece_cases p t) as (Hl & Hfb & Hvb & Hvl & Hprim & Hcons); auto.
  { subst p. auto. }
  assert (Hlr : length rest = (length itr - Z.to_nat r)%nat) by (subst rest; apply skipn_length).
  assert (Hbr : bytes rest) by (subst rest; auto).
  assert (Hsr : small rest) by (eapply small_le; [exact Hsi|lia]).
  assert (Zr : Zlen itr = r + Zlen rest) by (unfold Zlen; lia). assert (Zp : Zlen p = r) by (unfold Zlen; lia).
  destruct (ber_is_constructed t) eqn:Ec.
  - destruct (Hcons eq_refl) as (id & lf & Ep & Hid & Hc & Ht & Hlf). pose proof (id_pos _ Hid) as Pid.
    assert (Hvs : small (b_val t)) by (eapply small_le; [exact Hsi|lia]).
    assert (Zp' : r = Zlen id + Zlen lf + Zlen (b_val t)) by (rewrite <- Zp, Ep, !Zlen_app3; lia). pose proof (Zlen_nonneg lf) as Lf0. pose proof (Zlen_nonneg (b_val t)) as V0.
    change (ber_itr_init (b_val t)) with (b_val t).
    destruct (IH data (P ++ id ++ lf) (rest ++ Q) (b_val t) (b_val t) 0 (total + (r - b_len t))) as (ok & ms & t2 & -> & R2 & O2 & M2 & B2 & S2); [rewrite Hd, Eitr, Ep, <- !app_assoc; reflexivity|rewrite !Zlen_app3; lia|reflexivity|exact Hvb|exact Hvs|lia|]. cbn [bind].
    assert (MT : forall lim, total + Zlen id <= lim -> mark_in data lim (Tag total (b_tag t))).
    { intros lim HL. cbn [mark_in]. exists P, id, (lf ++ b_val t ++ rest ++ Q). split; [rewrite Hd, Eitr, Ep, <- !app_assoc; reflexivity|]. repeat (split; [congruence|]). exact HL. }
    destruct ok; cbn [negb].
    + specialize (O2 eq_refl). destruct (IH data (P ++ p) Q whole rest (valid + (r - b_len t) + b_len t) t2) as (ok & ms' & t3 & -> & R3 & O3 & M3 & B3 & S3); [rewrite Hd, Eitr, <- !app_assoc; reflexivity|rewrite Zlen_app3; lia|lia|exact Hbr|exact Hsr|lia|]. cbn [bind].
      eexists _, _, _. split; [reflexivity|]. split; [lia|]. split; [intros E; specialize (O3 E); lia|]. split; [|split].
      * constructor; [apply MT; lia|]. apply Forall_app. split; [eapply Forall_impl; [|exact M2]; intros m; apply mark_in_le; lia|exact M3].
      * constructor; [cbn [begins]; lia|]. apply Forall_app. split; (eapply Forall_impl; [|eassumption]; cbn; lia).
      * cbn [map]. rewrite map_app. constructor; [|cbn [begins]; rewrite <- map_app; apply Forall_map; apply Forall_app; split; (eapply Forall_impl; [|eassumption]; cbn; lia)].
        apply sorted_app; [exact S2|exact S3|]. intros x y Hx Hy. apply in_map_iff in Hx as (m1 & <- & Hx). apply in_map_iff in Hy as (m2 & <- & Hy). rewrite Forall_forall in B2, B3. specialize (B2 _ Hx). specialize (B3 _ Hy). cbn in B2, B3. lia.
    + eexists _, _, _. split; [reflexivity|]. split; [lia|]. split; [discriminate|]. split; [|split].
      * constructor; [apply MT; lia|exact M2].
      * constructor; [cbn [begins]; lia|]. eapply Forall_impl; [|exact B2]; cbn; lia.
      * cbn [map]. constructor; [exact S2|]. cbn [begins]. apply Forall_map. eapply Forall_impl; [|exact B2]; cbn; lia.
  - destruct (Hprim eq_refl) as (He & _). destruct He as [_ (id & lf & Ep & Hid & Ht & Hlf & _)]. pose proof (id_pos _ Hid) as Pid.
    assert (Zp' : r = Zlen id + Zlen lf + Zlen (b_val t)) by (rewrite <- Zp, Ep, !Zlen_app3; lia). pose proof (Zlen_nonneg lf) as Lf0. pose proof (Zlen_nonneg (b_val t)) as V0.
    destruct (IH data (P ++ p) Q whole rest (valid + r) (total + r)) as (ok & ms & t3 & -> & R3 & O3 & M3 & B3 & S3); [rewrite Hd, Eitr, <- !app_assoc; reflexivity|rewrite Zlen_app3; lia|lia|exact Hbr|exact Hsr|lia|]. cbn [bind].
    eexists _, _, _. split; [reflexivity|]. split; [lia|]. split; [intros E; specialize (O3 E); lia|]. split; [|split].
    + constructor; [|exact M3]. cbn [mark_in]. exists P, id, (lf ++ b_val t ++ rest ++ Q). split; [rewrite Hd, Eitr, Ep, <- !app_assoc; reflexivity|]. repeat (split; [congruence|]). lia.
    + constructor; [cbn [begins]; lia|]. eapply Forall_impl; [|exact B3]; cbn; lia.
    + cbn [map]. constructor; [exact S3|]. cbn [begins]. apply Forall_map. eapply Forall_impl; [|exact B3]; cbn; lia.
Qed.

(** ** Which data has a layout *)
Definition indefinite (id rest : list Z) : Prop := identifier id /\ constructed (hd 0 id).
Lemma bad_cases bad : bytes bad -> small bad -> bad <> [] -> (forall r t itr', ber_itr_next bad = Ret (r, t, itr') -> r <= 0) ->
  no_object bad \/ exists id rest, bad = id ++ 128 :: rest /\ identifier id /\ constructed (hd 0 id).
Proof.
  intros B S NE H. destruct (tag_decode_total bad B) as (r & tg & E & R).
  assert (N1 : forall enc tag flags v rest, encodes enc tag flags v -> bad <> enc ++ rest).
  { intros enc tag flags v rest He Hb. rewrite Hb in *. destruct (itr_next_encodes _ _ _ _ rest He S) as (off & En). specialize (H _ _ _ En). pose proof (encodes_length _ _ _ _ He). unfold Zlen in H. lia. }
  assert (D : (exists id rest, bad = id ++ 128 :: rest /\ identifier id /\ constructed (hd 0 id)) \/ (forall id rest, identifier id -> constructed (hd 0 id) -> bad <> id ++ 128 :: rest)).
  { destruct (Z.leb_spec r 0) as [Hr|Hr].
    - right. intros id rest Hid _ Hb. rewrite Hb, tag_decode_complete in E by exact Hid. injection E as <- _. pose proof (id_pos _ Hid). lia.
    - destruct (tag_decode_sound bad r tg B E Hr) as (id & rest & Hb & Hid & _ & Hz).
      assert (U : forall id' rest', identifier id' -> bad = id' ++ rest' -> id' = id /\ rest' = rest).
      { intros id' rest' Hid' Hb'. rewrite Hb', tag_decode_complete in E by exact Hid'. injection E as E _. assert (L : length id' = length id) by (unfold Zlen in *; lia).
        rewrite Hb in Hb'. split; [|]; (apply app_inj_tail_iff in Hb' || idtac).
        - apply (f_equal (firstn (length id))) in Hb'. rewrite firstn_app, firstn_all, Nat.sub_diag, firstn_O, app_nil_r in Hb'. rewrite <- L in Hb'. rewrite firstn_app, firstn_all, Nat.sub_diag, firstn_O, app_nil_r in Hb'. congruence.
        - apply (f_equal (skipn (length id))) in Hb'. rewrite skipn_length_app in Hb'. rewrite <- L in Hb'. rewrite skipn_length_app in Hb'. congruence. }
      destruct (Z.eq_dec ((hd 0 id / 32) mod 2) 1) as [C|C].
      + destruct rest as [|x rest].
        * right. intros id' rest' Hid' _ Hb'. destruct (U id' _ Hid' Hb') as [_ X]. discriminate.
        * destruct (Z.eq_dec x 128) as [->|Nx]; [left; exists id, rest; auto|]. right. intros id' rest' Hid' _ Hb'. destruct (U id' _ Hid' Hb') as [_ X]. injection X as X _. congruence.
      + right. intros id' rest' Hid' C' Hb'. destruct (U id' _ Hid' Hb') as [-> _]. exact (C C'). }
  destruct D as [D|D]; [right; exact D|left]. split; [exact NE|]. split; [exact N1|exact D].
Qed.
Theorem layout_total ign : forall n itr len off, (length itr < n)%nat -> bytes itr -> small itr -> Zlen itr <= len ->
  (exists ps off' ok, layout ign len off itr ps off' ok /\ (ok = true -> off' = off + Zlen itr)) \/
  (exists pre id post, itr = pre ++ id ++ 128 :: post /\ identifier id /\ constructed (hd 0 id)).
Proof.
  induction n as [|n IH]; intros itr len off Hf Hbi Hsi Hle; [lia|].
  destruct (itr_next_step itr Hbi Hsi) as (r & t & Ed & Hok & En).
  destruct (Z.leb_spec r 0) as [Hr|Hr].
  { destruct itr as [|x itr0] eqn:Ei; [left; exists [], off, true; split; [constructor|change (Zlen []) with 0; lia]|]. rewrite <- Ei in *. assert (NE : itr <> []) by (rewrite Ei; discriminate).
    destruct (bad_cases itr Hbi Hsi NE) as [N|(id & rest & E & Hid & C)]; [intros r' t' i' E'; rewrite En in E'; injection E' as <- _ _; exact Hr| |right; exists [], id, rest; auto].
    left. pose proof (Zlen_nonneg itr). destruct (looks_padding ign len (len - Zlen itr)) eqn:E.
    - apply (block_padding_ok ign len itr NE) in E; [|lia]. destruct E as [E1 E2]. eexists _, _, true. split; [apply la_pad; assumption|reflexivity].
    - eexists _, _, false. split; [apply la_bad; [exact N|]|discriminate]. intros X. apply (block_padding_ok ign len itr NE) in X; [congruence|lia]. }
  destruct t as [t|]; cbn [ber_ok] in Hok; [|lia].
  destruct (decode_piece itr r t Hbi Hsi Ed) as [Hpc Hlen].
  set (p := firstn (Z.to_nat r) itr) in *. set (rest := skipn (Z.to_nat r) itr) in *.
  assert (Eitr : itr = p ++ rest) by (symmetry; apply firstn_skipn).
  assert (Hlp : length p = Z.to_nat r) by (apply firstn_length_le; lia).
  assert (Hbp : bytes p) by (subst p; auto).
  assert (Hlr : length rest = (length itr - Z.to_nat r)%nat) by (subst rest; apply skipn_length).
  assert (Hbr : bytes rest) by (subst rest; auto).
  assert (Hsr : small rest) by (eapply small_le; [exact Hsi|lia]).
  assert (Zr : Zlen itr = r + Zlen rest) by (unfold Zlen; lia). assert (Zp : Zlen p = r) by (unfold Zlen; lia).
  destruct Hpc as [[He Hl]|(id & Hp & Hid & Hc & _)].
  2:{ right. exists [], id, (b_val t ++ rest). split; [rewrite Eitr, Hp, <- !app_assoc; reflexivity|auto]. }
  pose proof (encodes_vlen _ _ _ _ He) as Hvl. destruct He as [Hvb (id & lf & Ep & Hid & Ht & Hlf & _)]. pose proof (id_pos _ Hid) as Pid. pose proof (lf_pos _ _ Hlf) as Plf.
  assert (Zp' : r = Zlen id + Zlen lf + Zlen (b_val t)) by (rewrite <- Zp, Ep, !Zlen_app3; lia).
  assert (Hvs : small (b_val t)) by (eapply small_le; [exact Hsi|lia]).
  assert (Er : itr = id ++ lf ++ b_val t ++ rest) by (rewrite Eitr, Ep, <- !app_assoc; reflexivity).
  assert (Rest : (exists ps off' ok, layout ign len (off + Zlen id + Zlen lf + Zlen (b_val t)) rest ps off' ok /\ (ok = true -> off' = off + Zlen id + Zlen lf + Zlen (b_val t) + Zlen rest)) \/
     (exists pre id post, itr = pre ++ id ++ 128 :: post /\ identifier id /\ constructed (hd 0 id))).
  { destruct (IH rest len (off + Zlen id + Zlen lf + Zlen (b_val t)) ltac:(lia) Hbr Hsr ltac:(lia)) as [X|(pre & id' & post & E' & Hi')]; [left; exact X|right].
    exists (p ++ pre), id', post. split; [rewrite Eitr, E', <- !app_assoc; reflexivity|exact Hi']. }
  destruct Rest as [(ps & off' & ok & L & O)|X]; [|right; exact X].
  destruct (Z.eq_dec ((hd 0 id / 32) mod 2) 1) as [C|C].
  - destruct (IH (b_val t) (Zlen (b_val t)) (off + Zlen id + Zlen lf) ltac:(lia) Hvb Hvs ltac:(lia)) as [(ps1 & off1 & ok1 & L1 & O1)|(pre & id' & post & E' & Hi')].
    + left. destruct ok1.
      * specialize (O1 eq_refl). rewrite O1 in L1. exists (TagAt off (Zlen id) :: ps1 ++ ps), off', ok. split; [rewrite Er; apply la_node; assumption|intros Y; specialize (O Y); lia].
      * exists (TagAt off (Zlen id) :: ps1), off1, false. split; [rewrite Er; apply la_broken; assumption|discriminate].
    + right. exists (id ++ lf ++ pre), id', (post ++ rest). split; [rewrite Er, E', <- !app_assoc; reflexivity|exact Hi'].
  - left. exists (TagAt off (Zlen id) :: ps), off', ok. split; [rewrite Er; apply la_leaf; assumption|intros Y; specialize (O Y); lia].
Qed.

(** Well-formed data. *)
Lemma forest_layout ign : forall buf ts, forest true buf ts -> forall len off, exists ps, layout ign len off buf ps (off + Zlen buf) true /\ Forall (fun p => exists o n, p = TagAt o n) ps.
Proof.
  induction 1 as [|enc tag flags v encs ts He Hf Hl IH|enc tag flags v kids encs ts He Hf Hi IHi Hl IH|id v kids encs ts Q]; intros len off; [| | |discriminate].
  - exists []. change (Zlen []) with 0. rewrite Z.add_0_r. split; constructor.
  - destruct He as [Hvb (id & lf & Ep & Hid & Ht & Hlf & Hfl)]. assert (C : ~ constructed (hd 0 id)) by (intros C; rewrite Hfl in Hf; apply (constructed_flag id Hid) in C; lia).
    destruct (IH len (off + Zlen id + Zlen lf + Zlen v)) as (ps & L & F). exists (TagAt off (Zlen id) :: ps). split; [|constructor; [eauto|exact F]].
    rewrite Ep, <- !app_assoc. replace (off + Zlen (id ++ lf ++ v ++ encs)) with (off + Zlen id + Zlen lf + Zlen v + Zlen encs) by (rewrite !Zlen_app3; lia). apply la_leaf; assumption.
  - destruct He as [Hvb (id & lf & Ep & Hid & Ht & Hlf & Hfl)]. assert (C : constructed (hd 0 id)) by (rewrite Hfl in Hf; apply (constructed_flag id Hid); exact Hf).
    destruct (IHi (Zlen v) (off + Zlen id + Zlen lf)) as (ps1 & L1 & F1). destruct (IH len (off + Zlen id + Zlen lf + Zlen v)) as (ps & L & F). exists (TagAt off (Zlen id) :: ps1 ++ ps). split; [|constructor; [eauto|apply Forall_app; split; assumption]].
    rewrite Ep, <- !app_assoc. replace (off + Zlen (id ++ lf ++ v ++ encs)) with (off + Zlen id + Zlen lf + Zlen v + Zlen encs) by (rewrite !Zlen_app3; lia). apply la_node; assumption.
Qed.
(** The layout is unique. *)
Lemma layout_unique ign buf ps valid ok ps' valid' ok' : bytes buf -> small buf -> data_layout ign buf ps valid ok -> data_layout ign buf ps' valid' ok' -> ps = ps' /\ valid = valid' /\ ok = ok'.
Proof.
  intros B S L L'. destruct (walk_layout ign _ _ _ _ _ _ L (Datatypes.S (length buf)) buf eq_refl ltac:(lia) B S ltac:(lia)) as (ms & E & F).
  destruct (walk_layout ign _ _ _ _ _ _ L' (Datatypes.S (length buf)) buf eq_refl ltac:(lia) B S ltac:(lia)) as (ms' & E' & F'). rewrite E in E'. injection E' as -> <- ->. split; [|auto].
  clear - F F'. revert ps' F'. induction F as [|m p ms ps H F IH]; intros ps' F'; inversion F' as [|? p' ? ps0 H' F0]; subst; [reflexivity|]. f_equal; [|apply IH; assumption].
  destruct m, p, p'; cbn [mark_at] in *; try contradiction; f_equal; intuition congruence.
Qed.
Lemma parse_layout ign buf ps valid ok : bytes buf -> small buf -> data_layout ign buf ps valid ok -> exists ms, parse_ber ign buf = Ret (ok, ms, valid) /\ Forall2 mark_at ms ps.
Proof.
  intros B S L. unfold parse_ber, ber_itr_init. destruct (walk_layout ign _ _ _ _ _ _ L (Datatypes.S (length buf)) buf eq_refl ltac:(lia) B S ltac:(lia)) as (ms & E & F). rewrite Z.sub_diag in E. eauto.
Qed.
