(** Proofs about the text printed for BER data. *)
From Coq Require Import String.
From Verif Require Import Base BaseLemmas BerModel BerSpec BerProofs TlvModel TlvListModel TlvSpec TlvProofs StrModel StrSpec StrProofs CapduModel CapduSpec CapduProofs
  FlagsSpec FlagsTexts InfoModel ToolsModel ToolsSpec ToolsProofs PrintModel PrintSpec PrintProofs BerTextModel BerTextSpec.
Open Scope string_scope.
Open Scope Z_scope.
Open Scope list_scope.
Notation length := List.length.

Lemma events_app prefix a : forall b s t, events_text prefix a = Ret s -> events_text prefix b = Ret t -> events_text prefix (a ++ b) = Ret (s ++ t).
Proof.
  induction a as [|ev a IH]; intros b s t Ea Eb; [cbn in Ea; injection Ea as <-; exact Eb|]. cbn [events_text app] in *.
  destruct (event_text prefix ev) as [x| |]; try discriminate. cbn [bind] in *. destruct (events_text prefix a) as [y| |]; try discriminate. cbn [bind] in *. injection Ea as <-.
  rewrite (IH b y t eq_refl Eb). cbn [bind]. rewrite app_assoc. reflexivity.
Qed.
Lemma p_s_nul s : forall r, ~ In 0 s -> p_s (s ++ 0 :: r) = Ret s.
Proof.
  induction s as [|c s IH]; intros r N; [reflexivity|]. cbn [app p_s]. destruct (Z.eqb_spec c 0) as [->|]; [exfalso; apply N; left; reflexivity|]. rewrite IH by (intros I; apply N; right; exact I). reflexivity.
Qed.
Lemma p_s_before v s : before_nul v s -> p_s (v ++ [0]) = Ret s.
Proof. intros [u N|u r N]; [apply p_s_nul, N|]. rewrite <- app_assoc. cbn [app]. apply p_s_nul, N. Qed.
Lemma be128_pos more : forall last, Forall (fun b => 128 <= b < 256) more -> 0 <= last < 128 -> 0 <= be128 (more ++ [last]).
Proof.
  assert (G : forall l a, 0 <= a -> 0 <= fold_left (fun a b => a * 128 + b mod 128) l a).
  { induction l as [|b l IH]; intros a A; [exact A|]. cbn [fold_left]. apply IH. pose proof (Z.mod_pos_bound b 128 ltac:(lia)). lia. }
  intros last _ _. unfold be128. apply G. lia.
Qed.
Lemma arcs_range v arcs : oid_arcs v arcs -> Forall (fun a => 0 <= a < 10000000000) arcs.
Proof.
  intros (b0 & a1 & a2 & encs & vs & _ & -> & R1 & R2 & _ & Eb & Lb & F). constructor; [lia|]. constructor; [lia|]. clear -F.
  induction F as [|e x encs vs ((more & last & -> & Fm & Fl & ->) & L) F IH]; constructor; [|exact IH]. pose proof (be128_pos more last Fm Fl). lia.
Qed.
Lemma arcs_text arcs : Forall (fun a => 0 <= a < 10000000000) arcs -> p_arcs true arcs = numbers arcs.
Proof.
  assert (G : forall l, Forall (fun a => 0 <= a < 10000000000) l -> p_arcs false l = flat_map (fun a => 32 :: decimal_text a) l).
  { induction 1 as [|a l A F IH]; [reflexivity|]. cbn [p_arcs flat_map]. rewrite IH, p_dec_text by lia. reflexivity. }
  intros F. unfold numbers. destruct F as [|a l A F]; [reflexivity|]. cbn [p_arcs flat_map tl app]. rewrite (G l F), p_dec_text by lia. reflexivity.
Qed.
Lemma ber_head_ok prefix d id v : identifier id -> small v -> field_head prefix d (be id) (Zlen v) None = List.concat (repeat prefix d) ++ ber_head id v.
Proof. intros Hid S. rewrite head_ok by assumption. unfold head_text, ber_head, titled. rewrite app_nil_r. reflexivity. Qed.
Lemma leaf_line prefix d id v t : identifier id -> bytes v -> small v -> remark (be id) v t ->
  exists n, ber_note (be id) v n /\ event_text prefix (ELeaf d (be id) v n) = Ret (line_at prefix d (ber_head id v ++ spaced v ++ t)).
Proof.
  intros Hid B S R.
  assert (L : forall x, field_head prefix d (be id) (Zlen v) None ++ p_octets v ++ x ++ newline = line_at prefix d (ber_head id v ++ spaced v ++ x)).
  { intros x. rewrite ber_head_ok by assumption. unfold p_octets. rewrite spaced_ok by exact B. unfold line_at, newline, nl. rewrite <- !app_assoc. reflexivity. }
  destruct R as [s St Lv Bn|St Lv|arcs Et Oa La Lv|Ns N6].
  - exists (NText v). split; [left; auto|]. cbn [event_text note_text]. rewrite (p_s_before v s Bn). cbn [bind]. rewrite L. reflexivity.
  - exists NLong. split; [right; left; auto|]. cbn [event_text note_text bind]. rewrite L. reflexivity.
  - exists (NOid arcs). split; [right; right; left; split; [exact Et|]; exists arcs; auto|]. cbn [event_text note_text bind]. rewrite L, (arcs_text arcs (arcs_range _ _ Oa)). reflexivity.
  - exists NNone. split; [right; right; right; auto|]. cbn [event_text note_text bind]. destruct (Z.eqb_spec (be id) 0x06); [contradiction|]. rewrite L. reflexivity.
Qed.
Lemma node_line prefix d id v : identifier id -> small v -> event_text prefix (ENode d (be id) (Zlen v)) = Ret (line_at prefix d (ber_head id v)).
Proof. intros Hid S. cbn [event_text]. rewrite ber_head_ok by assumption. unfold line_at, newline, nl. rewrite <- !app_assoc. reflexivity. Qed.
Lemma text_listing prefix d enc txt : ber_text prefix d enc txt -> small enc -> exists evs, listing ber_note d enc evs /\ events_text prefix evs = Ret txt.
Proof.
  induction 1 as [d|d id lf v rest t txt Hid B C L R T IH|d id lf v rest inner txt Hid B C L I IHi T IH]; intros S.
  - exists []. split; [constructor|reflexivity].
  - assert (Sv : small v) by (eapply small_le; [exact S|rewrite !app_length; lia]). assert (Sr : small rest) by (eapply small_le; [exact S|rewrite !app_length; lia]).
    destruct (IH Sr) as (evs & Le & Ee). destruct (leaf_line prefix d id v t Hid B Sv R) as (n & Nn & En). exists (ELeaf d (be id) v n :: evs).
    assert (He : encodes (id ++ lf ++ v) (be id) (class_bits (hd 0 id)) v) by (split; [exact B|exists id, lf; auto]).
    split; [replace (id ++ lf ++ v ++ rest) with ((id ++ lf ++ v) ++ rest) by (rewrite <- !app_assoc; reflexivity); eapply li_leaf; eauto|].
    + unfold class_bits. rewrite Z.div_mul by lia. unfold constructed in C. pose proof (Z.mod_pos_bound (hd 0 id / 32) 8 ltac:(lia)). revert C. pose proof (Z.mod_pos_bound (hd 0 id / 32) 2 ltac:(lia)). lia.
    + cbn [events_text]. rewrite En. cbn [bind]. rewrite Ee. reflexivity.
  - assert (Sv : small v) by (eapply small_le; [exact S|rewrite !app_length; lia]). assert (Sr : small rest) by (eapply small_le; [exact S|rewrite !app_length; lia]).
    destruct (IH Sr) as (evs & Le & Ee). destruct (IHi Sv) as (ievs & Li & Ei). exists (ENode d (be id) (Zlen v) :: ievs ++ evs).
    assert (He : encodes (id ++ lf ++ v) (be id) (class_bits (hd 0 id)) v) by (split; [exact B|exists id, lf; auto]).
    split; [replace (id ++ lf ++ v ++ rest) with ((id ++ lf ++ v) ++ rest) by (rewrite <- !app_assoc; reflexivity); eapply li_node; eauto; apply constructed_flag; assumption|].
    cbn [events_text]. rewrite node_line by assumption. cbn [bind]. rewrite (events_app prefix ievs evs inner txt Ei Ee). reflexivity.
Qed.
Theorem text_printed prefix buf d ign txt : small buf -> ber_text prefix d buf txt -> print_ber_text prefix buf d ign = Ret txt.
Proof.
  intros S T. destruct (text_listing prefix d buf txt T S) as (evs & L & E). unfold print_ber_text, print_ber_buf, dump, ber_itr_init.
  rewrite (dump_listing ber_leaf ber_note ber_leaf_note d buf evs L (Datatypes.S (length buf)) buf 0 ign S) by (unfold Zlen; lia).
  cbn [bind]. pose proof (Zlen_nonneg buf). destruct (Z.ltb_spec (Zlen buf) 0); [lia|]. rewrite Z.ltb_irrefl, andb_false_r. cbn [app]. rewrite app_nil_r. exact E.
Qed.

(** Octets after the listed ones. *)
Lemma dump_prefix (leaf : leaf_fun) (note_of : Z -> list Z -> note -> Prop) :
  (forall t n, note_of (b_tag t) (b_val t) n -> b_len t = Zlen (b_val t) -> leaf t = Ret (inl n)) ->
  forall d enc evs, listing note_of d enc evs -> forall rest fuel buf valid ign, small (enc ++ rest) -> (length (enc ++ rest) < fuel)%nat ->
  exists fuel', (length rest < fuel')%nat /\
    dump_loop leaf fuel buf (enc ++ rest) valid d ign = (let* (e2, r) := dump_loop leaf fuel' buf rest (valid + Zlen enc) d ign in Ret (evs ++ e2, r)).
Proof.
  intros Hleaf. induction 1 as [d|d enc tag flags v n encs evs He Hf Hn Hl IH|d enc tag flags v inner encs evs He Hf Hi _ Hl IH]; intros rest fuel buf valid ign Hs Hfu.
  - exists fuel. split; [exact Hfu|]. cbn [app]. replace (valid + Zlen []) with valid by (unfold Zlen; cbn; lia). destruct (dump_loop _ _ _ _ _ _ _) as [[e2 r]| |]; reflexivity.
  - destruct fuel; [lia|]. cbn [dump_loop]. rewrite <- app_assoc in *.
    destruct (itr_next_encodes _ _ _ _ (encs ++ rest) He Hs) as (off & ->). cbn [bind].
    pose proof (encodes_vlen _ _ _ _ He). pose proof (app_length enc (encs ++ rest)) as La. destruct (Z.leb_spec (Zlen enc) 0); [unfold Zlen in *; lia|].
    rewrite prim_flag by (cbn [b_flags]; first [exact Hf | eapply encodes_flags; eauto]).
    rewrite (Hleaf _ n) by (cbn [b_tag b_val b_len]; auto). cbn [bind b_tag b_val].
    destruct (IH rest fuel buf (valid + Zlen enc) ign) as (fuel' & Lf & E); [eapply small_app_r; eauto|lia|]. exists fuel'. split; [exact Lf|]. rewrite E.
    replace (valid + Zlen enc + Zlen encs) with (valid + Zlen (enc ++ encs)) by (unfold Zlen; rewrite app_length; lia).
    destruct (dump_loop leaf fuel' buf rest (valid + Zlen (enc ++ encs)) d ign) as [[e2 r]| |]; reflexivity.
  - destruct fuel; [lia|]. cbn [dump_loop]. rewrite <- app_assoc in *.
    destruct (itr_next_encodes _ _ _ _ (encs ++ rest) He Hs) as (off & ->). cbn [bind].
    pose proof (encodes_vlen _ _ _ _ He). pose proof (app_length enc (encs ++ rest)) as La. destruct (Z.leb_spec (Zlen enc) 0); [unfold Zlen in *; lia|].
    rewrite cons_flag by (cbn [b_flags]; first [exact Hf | eapply encodes_flags; eauto]). cbn [b_tag b_val b_len].
    rewrite (dump_listing leaf note_of Hleaf _ _ _ Hi) by (solve [lia | eapply small_le; [exact Hs|lia]]). cbn [bind].
    pose proof (Zlen_nonneg v). destruct (Z.ltb_spec (Zlen v) 0); [lia|]. rewrite Z.ltb_irrefl.
    destruct (IH rest fuel buf (valid + (Zlen enc - Zlen v) + Zlen v) ign) as (fuel' & Lf & E); [eapply small_app_r; eauto|lia|]. exists fuel'. split; [exact Lf|]. rewrite E.
    replace (valid + (Zlen enc - Zlen v) + Zlen v + Zlen encs) with (valid + Zlen (enc ++ encs)) by (unfold Zlen; rewrite app_length; lia).
    destruct (dump_loop leaf fuel' buf rest (valid + Zlen (enc ++ encs)) d ign) as [[e2 r]| |]; [|reflexivity|reflexivity]. cbn [bind app]. rewrite <- app_assoc. reflexivity.
Qed.
Lemma error_line prefix r : -11 <= r < 0 -> events_text prefix [EErr r] = Ret (lit "BER decoding error -" ++ decimal_text (- r)).
Proof. intros R. cbn [events_text event_text bind]. unfold p_int. destruct (Z.ltb_spec r 0); [|lia]. rewrite p_dec_text by lia. rewrite app_nil_r. reflexivity. Qed.
Lemma rest_line prefix off p : 0 <= off < 2147483648 -> bytes p -> events_text prefix [ERest off p] = Ret (lit " at offset " ++ decimal_text off ++ lit "; remaining invalid data:" ++ spaced p ++ nl).
Proof. intros R B. cbn [events_text event_text bind]. unfold p_int, p_octets. destruct (Z.ltb_spec off 0); [lia|]. rewrite p_dec_text, spaced_ok by (lia || exact B). rewrite app_nil_r. reflexivity. Qed.
Lemma dump_end_bad enc bad d ign r : bad <> [] -> -11 <= r < 0 ->
  (ign = true /\ padding (enc ++ bad) bad /\ dump_end (enc ++ bad) (Zlen enc) d ign r = ([EPad d bad], Zlen (enc ++ bad))) \/
  (~ (ign = true /\ padding (enc ++ bad) bad) /\ dump_end (enc ++ bad) (Zlen enc) d ign r = ([EErr r], Zlen enc)).
Proof.
  intros NE R. unfold dump_end. destruct (Z.ltb_spec r 0); [|lia]. pose proof (Zlen_nonneg (enc ++ bad)) as P. rewrite land_7, land_F by exact P.
  assert (La : Zlen (enc ++ bad) = Zlen enc + Zlen bad) by (unfold Zlen; rewrite app_length; lia). assert (Lb : 0 < Zlen bad) by (destruct bad; [contradiction|unfold Zlen; cbn [length]; lia]).
  assert (Ld : Zlen (enc ++ bad) - Zlen enc = Zlen bad) by lia. rewrite Ld. destruct (Z.ltb_spec (Zlen enc) (Zlen (enc ++ bad))); [|lia]. rewrite andb_true_r.
  replace (Z.to_nat (Zlen enc)) with (length enc) by (unfold Zlen; lia). rewrite skipn_length_app. unfold padding.
  destruct ign; cbn [andb].
  - destruct (Z.eqb_spec (Zlen (enc ++ bad) mod 8) 0), (Z.eqb_spec (Zlen (enc ++ bad) mod 16) 0), (Z.ltb_spec (Zlen bad) 8), (Z.ltb_spec (Zlen bad) 15); cbn [andb orb]; first [left; split; [reflexivity|]; split; [tauto|reflexivity]|right; split; [|reflexivity]; intros [_ X]; lia].
  - right. split; [|reflexivity]. intros [X _]. discriminate.
Qed.
Theorem invalid_printed prefix enc bad txt d ign : ber_text prefix d enc txt -> no_object bad -> bytes bad -> small (enc ++ bad) ->
  exists code, 1 <= code <= 11 /\
    (ign = true /\ padding (enc ++ bad) bad -> print_ber_text prefix (enc ++ bad) d ign = Ret (txt ++ padding_text prefix d bad)) /\
    (~ (ign = true /\ padding (enc ++ bad) bad) -> print_ber_text prefix (enc ++ bad) d ign = Ret (txt ++ error_text code (Zlen enc) bad)).
Proof.
  intros T N B S. assert (Se : small enc) by (eapply small_le; [exact S|rewrite app_length; lia]). destruct (text_listing prefix d enc txt T Se) as (evs & L & E).
  assert (Sb : small bad) by (eapply small_app_r; eauto). destruct (no_object_next bad B Sb N) as (r & Rr & En). exists (- r). split; [lia|].
  unfold print_ber_text, print_ber_buf, dump, ber_itr_init.
  destruct (dump_prefix ber_leaf ber_note ber_leaf_note d enc evs L bad (Datatypes.S (length (enc ++ bad))) (enc ++ bad) 0 ign S ltac:(lia)) as (fuel' & Lf & ->).
  destruct fuel' as [|f']; [lia|]. cbn [dump_loop]. rewrite En. cbn [bind]. destruct (Z.leb_spec r 0); [|lia]. rewrite Z.add_0_l.
  assert (La : Zlen (enc ++ bad) = Zlen enc + Zlen bad) by (unfold Zlen; rewrite app_length; lia). pose proof (Zlen_nonneg enc). pose proof (Zlen_nonneg bad).
  destruct (dump_end_bad enc bad d ign r (proj1 N) Rr) as [(P1 & P2 & ->)|(P1 & ->)]; (split; [intros Hp|intros Hp]); try tauto; cbn [bind].
  - destruct (Z.ltb_spec (Zlen (enc ++ bad)) 0); [lia|]. rewrite Z.ltb_irrefl, andb_false_r, !app_nil_r. apply events_app; [exact E|].
    cbn [events_text event_text bind]. unfold padding_text, line_at, indent, bracketed, p_octets. rewrite spaced_ok, p_dec_text by (exact B || (unfold small in Sb; lia)). rewrite app_nil_r. unfold newline, nl. rewrite <- !app_assoc. reflexivity.
  - destruct (Z.ltb_spec (Zlen enc) 0); [lia|]. assert (0 < Zlen bad) by (destruct bad; [destruct N as [N _]; contradiction|unfold Zlen; cbn [length]; lia]).
    destruct (Z.leb_spec 0 (Zlen enc)); [|lia]. destruct (Z.ltb_spec (Zlen enc) (Zlen (enc ++ bad))); [|lia]. cbn [andb app]. replace (Z.to_nat (Zlen enc)) with (length enc) by (unfold Zlen; lia). rewrite skipn_length_app.
    rewrite <- app_assoc. apply events_app; [exact E|]. rewrite (events_app prefix [EErr r] [ERest (Zlen enc) bad] _ _ (error_line prefix r Rr) (rest_line prefix (Zlen enc) bad ltac:(unfold small in S; lia) B)).
    unfold error_text. rewrite <- !app_assoc. reflexivity.
Qed.
(** Data that breaks off. *)
Lemma dump_broken prefix d buf off txt0 : ber_broken prefix d buf off txt0 -> bytes buf -> small buf -> 0 <= off < Zlen buf /\ forall fuel, (length buf < fuel)%nat ->
  exists evs txt, dump_loop ber_leaf fuel buf buf 0 d false = Ret (evs, off) /\ events_text prefix evs = Ret txt /\ ber_broken prefix d buf off txt.
Proof.
  induction 1 as [d enc bad txt code T N C|d enc id lf v rest off txt inner T Hid Bv C L Br IH]; intros B S.
  - split; [destruct N as (N & _); unfold Zlen; rewrite app_length; destruct bad; [contradiction|cbn [length]; lia]|]. intros fuel Hf.
    assert (Se : small enc) by (eapply small_le; [exact S|rewrite app_length; lia]). destruct (text_listing prefix d enc txt T Se) as (evs & Le & E).
    assert (Sb : small bad) by (eapply small_app_r; eauto). assert (Bb : bytes bad) by (apply bytes_app in B; tauto). destruct (no_object_next bad Bb Sb N) as (r & Rr & En).
    destruct (dump_prefix ber_leaf ber_note ber_leaf_note d enc evs Le bad fuel (enc ++ bad) 0 false S Hf) as (fuel' & Lf & ->).
    destruct fuel' as [|f']; [lia|]. cbn [dump_loop]. rewrite En. cbn [bind]. destruct (Z.leb_spec r 0); [|lia]. rewrite Z.add_0_l.
    destruct (dump_end_bad enc bad d false r (proj1 N) Rr) as [(P1 & _)|(_ & ->)]; [discriminate|]. cbn [bind].
    exists (evs ++ [EErr r]), (txt ++ lit "BER decoding error -" ++ decimal_text (- r)). split; [reflexivity|]. split; [apply events_app; [exact E|apply error_line, Rr]|].
    apply bb_here; [exact T|exact N|lia].
  - assert (Bt : bytes (id ++ lf ++ v ++ rest)) by (apply bytes_app in B; tauto). assert (St : small (id ++ lf ++ v ++ rest)) by (eapply small_app_r; eauto).
    assert (Sv : small v) by (eapply small_le; [exact St|rewrite !app_length; lia]). destruct (IH Bv Sv) as (R & G).
    pose proof (identifier_length _ Hid) as Li. split; [unfold Zlen in *; rewrite !app_length; lia|]. intros fuel Hf.
    assert (Se : small enc) by (eapply small_le; [exact S|rewrite app_length; lia]). destruct (text_listing prefix d enc txt T Se) as (evs & Le & E).
    destruct (dump_prefix ber_leaf ber_note ber_leaf_note d enc evs Le (id ++ lf ++ v ++ rest) fuel (enc ++ id ++ lf ++ v ++ rest) 0 false S Hf) as (fuel' & Lf & ->).
    destruct fuel' as [|f']; [lia|]. cbn [dump_loop].
    assert (He : encodes (id ++ lf ++ v) (be id) (class_bits (hd 0 id)) v) by (split; [exact Bv|exists id, lf; auto]).
    assert (St' : small ((id ++ lf ++ v) ++ rest)) by (rewrite <- !app_assoc; exact St).
    destruct (itr_next_encodes _ _ _ _ rest He St') as (o & En). rewrite <- !app_assoc in En. rewrite En. cbn [bind].
    assert (Lz : Zlen (id ++ lf ++ v) = Zlen id + Zlen lf + Zlen v) by (unfold Zlen; rewrite !app_length; lia). destruct (Z.leb_spec (Zlen (id ++ lf ++ v)) 0); [unfold Zlen in *; lia|].
    rewrite cons_flag by (cbn [b_flags]; first [now apply (constructed_flag id Hid) | eapply encodes_flags; eauto]). cbn [b_tag b_val b_len].
    destruct (G f' ltac:(rewrite !app_length in Lf; lia)) as (ievs & itxt & -> & Ei & Bi). cbn [bind]. destruct (Z.ltb_spec off 0); [lia|]. destruct (Z.ltb_spec off (Zlen v)); [|lia]. cbn [bind].
    exists (evs ++ ENode d (be id) (Zlen v) :: ievs), (txt ++ line_at prefix d (ber_head id v) ++ itxt). split; [f_equal; f_equal; rewrite Lz; lia|].
    split; [apply events_app; [exact E|]; cbn [events_text]; rewrite node_line by assumption; cbn [bind]; rewrite Ei; reflexivity|]. apply bb_in; assumption.
Qed.
Theorem broken_printed prefix buf off d txt0 : ber_broken prefix d buf off txt0 -> bytes buf -> small buf ->
  exists txt, ber_broken prefix d buf off txt /\
    print_ber_text prefix buf d false = Ret (txt ++ lit " at offset " ++ decimal_text off ++ lit "; remaining invalid data:" ++ spaced (skipn (Z.to_nat off) buf) ++ nl).
Proof.
  intros Br B S. destruct (dump_broken prefix d buf off txt0 Br B S) as (R & G). destruct (G (Datatypes.S (length buf)) ltac:(lia)) as (evs & txt & E & Et & Bt). exists txt. split; [exact Bt|].
  unfold print_ber_text, print_ber_buf, dump, ber_itr_init. rewrite E. cbn [bind]. destruct (Z.ltb_spec off 0); [lia|]. destruct (Z.leb_spec 0 off); [|lia]. destruct (Z.ltb_spec off (Zlen buf)); [|lia]. cbn [andb app].
  apply events_app; [exact Et|]. apply rest_line; [unfold small in S; lia|apply bytes_skipn, B].
Qed.
(** Every well-formed data has a text. *)
Lemma remark_exists tag v : (tag = 6 -> plain_oid v) -> exists t, remark tag v t.
Proof.
  intros O. assert (D : string_tag tag \/ ~ string_tag tag) by (unfold string_tag; lia). destruct D as [St|Ns].
  - destruct (Z_lt_dec (Zlen v) 1024) as [Lv|Lv]; [|eexists; apply re_long; [exact St|lia]].
    assert (K : exists s, before_nul v s).
    { clear. induction v as [|c v (s & H)]; [exists []; constructor; intros []|]. destruct (Z.eq_dec c 0) as [->|Nc]; [exists []; apply (bn_cut [] v); intros []|].
      exists (c :: s). destruct H as [s Ns|s r Ns]; [constructor|apply (bn_cut (c :: s))]; intros [|]; contradiction. }
    destruct K as (s & K). eexists. apply re_string; eauto.
  - destruct (Z.eq_dec tag 6) as [E|E]; [|eexists; apply re_none; auto]. destruct (O E) as (arcs & A & La & Lv). eexists. apply (re_oid tag v arcs); auto.
Qed.
Lemma text_exists prefix enc ts : forest true enc ts -> (forall f, In f (flat_map leaves ts) -> f_tag f = 6 -> plain_oid (f_val f)) -> forall d, exists txt, ber_text prefix d enc txt.
Proof.
  induction 1 as [|enc tag flags v encs ts He Hf Ff IH|enc tag flags v kids encs ts He Hf Fk IHk Ff IH|id v kids encs ts D]; intros O d; [| | |discriminate].
  - exists []. constructor.
  - destruct He as [Bv (id & lf & -> & Hid & -> & Lo & ->)]. destruct (IH ltac:(intros f I; apply O; cbn [flat_map leaves app]; right; exact I) d) as (txt & T).
    destruct (remark_exists (be id) v) as (t & R); [intros E6; apply (O (mkField (be id) (Zlen v) v 0)); [left; reflexivity|exact E6]|].
    eexists. rewrite <- !app_assoc. apply bx_leaf; eauto. intros C. apply (constructed_flag id Hid) in C. lia.
  - destruct He as [Bv (id & lf & -> & Hid & -> & Lo & ->)].
    destruct (IH ltac:(intros f I; apply O; cbn [flat_map]; apply in_or_app; right; exact I) d) as (txt & T).
    destruct (IHk ltac:(intros f I; apply O; cbn [flat_map leaves]; apply in_or_app; left; exact I) (Datatypes.S d)) as (inner & Ti).
    eexists. rewrite <- !app_assoc. apply bx_node; eauto. apply constructed_flag; assumption.
Qed.
