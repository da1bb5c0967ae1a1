(** What emv-viewer shows. *)
From Coq Require Import String Sorting.Sorted.
From Verif Require Import Base BaseLemmas BerModel BerSpec BerProofs TlvModel TlvListModel TlvSpec TlvProofs StrModel StrSpec InfoModel InfoSpec InfoProofs InfoProps ToolsModel ToolsSpec PrintModel PrintSpec PrintProofs
  ViewModel ViewSpec ViewWalk ViewPaint ViewTree.
Open Scope string_scope.
Open Scope Z_scope.
Open Scope list_scope.
Notation length := List.length.

(** ** C149: highlighting *)
Theorem C149_highlight_partial : forall ign emph sel blocks data rest ps valid ok,
  Forall (Forall latin) blocks -> reads (stripped (List.concat blocks)) data rest -> small data -> data_layout ign data ps valid ok ->
  (0 < snd sel -> 0 <= fst sel /\ fst sel + snd sel <= 2 * Zlen data) ->
  exists fss, highlight ign emph sel blocks = Ret fss /\ length fss = length blocks /\
    forall before text after, blocks = before ++ text :: after -> length (nth (length before) fss []) = length text /\
      forall a c b, text = a ++ c :: b ->
        let f := nth (length a) (nth (length before) fss []) plain_fmt in
        let i := Zlen (stripped (List.concat before ++ a)) in
        (hex_char c -> digit_fmt emph sel ps valid i f) /\
        (~ hex_char c -> visible c -> f = non_hex_fmt) /\
        (~ visible c -> f = plain_fmt \/ f = non_hex_fmt) /\
        (~ visible c -> Zlen (stripped (List.concat before ++ text)) <= 2 * valid -> f = plain_fmt).
Proof. intros ign emph sel blocks data rest ps valid ok. apply highlight_ok. Qed.
Print Assumptions C149_highlight_partial.
(** What is visible is what is not white space, and [stripped] leaves just that. *)
Theorem C149_white_space :
  (forall c, visible c <-> ~ white c) /\ stripped [] = [] /\
  (forall c s, white c -> stripped (c :: s) = stripped s) /\ (forall c s, ~ white c -> stripped (c :: s) = c :: stripped s).
Proof.
  assert (W : forall c, q_space c = true <-> white c).
  { intros c. unfold q_space, white. rewrite !Bool.orb_true_iff, !Bool.andb_true_iff, !Z.leb_le, !Z.eqb_eq. cbn [In]. intuition lia. }
  assert (V : forall c, visible c <-> ~ white c).
  { intros c. unfold visible. rewrite <- W. destruct (q_space c); intuition congruence. }
  split; [exact V|]. split; [reflexivity|]. unfold stripped. split; intros c s H; cbn [filter].
  - rewrite (proj2 (W c) H). reflexivity.
  - rewrite (proj2 (V c) H). reflexivity.
Qed.
Print Assumptions C149_white_space.
(** The marks can be told apart, and what is selected from what is not. *)
Theorem C149_marks_differ : NoDup [plain_fmt; tag_fmt; padding_fmt; invalid_fmt; non_hex_fmt] /\
  Forall (fun f => forall g, In g [plain_fmt; tag_fmt; padding_fmt; invalid_fmt; non_hex_fmt] -> selected_fmt f <> g)
    [plain_fmt; tag_fmt; padding_fmt; invalid_fmt; non_hex_fmt] /\
  NoDup (map selected_fmt [plain_fmt; tag_fmt; padding_fmt; invalid_fmt]).
Proof.
  split; [|split].
  - repeat (constructor; [cbn [In]; intuition discriminate|]). constructor.
  - apply Forall_forall. intros f _ g I E. subst g. cbn [In] in I. repeat (destruct I as [I|I]; [discriminate I|]). destruct I.
  - cbn [map]. repeat (constructor; [cbn [In]; intuition discriminate|]). constructor.
Qed.
Print Assumptions C149_marks_differ.
(** There is one layout, unless an object of indefinite length is in the data. *)
Theorem C149_layouts : forall ign data, bytes data -> small data ->
  ((exists ps valid ok, data_layout ign data ps valid ok /\ (ok = true -> valid = Zlen data)) \/
   (exists pre id post, data = pre ++ id ++ 128 :: post /\ identifier id /\ constructed (hd 0 id))) /\
  (forall ps valid ok ps' valid' ok', data_layout ign data ps valid ok -> data_layout ign data ps' valid' ok' -> ps = ps' /\ valid = valid' /\ ok = ok').
Proof.
  intros ign data B S. split.
  - destruct (layout_total ign (Datatypes.S (length data)) data (Zlen data) 0 ltac:(lia) B S ltac:(lia)) as [(ps & v & ok & L & O)|X]; [left; exists ps, v, ok; split; [exact L|exact O]|right; exact X].
  - intros. eapply layout_unique; eassumption.
Qed.
Print Assumptions C149_layouts.
(** Well-formed data is valid, and all of its marks are tags. *)
Theorem C149_wellformed : forall ign data ts, forest true data ts -> exists ps, data_layout ign data ps (Zlen data) true /\ Forall (fun p => exists off n, p = TagAt off n) ps.
Proof. intros ign data ts F. destruct (forest_layout ign data ts F (Zlen data) 0) as (ps & L & Fp). exists ps. split; [exact L|exact Fp]. Qed.
Print Assumptions C149_wellformed.
(** Any data: the marks are tags in the data, one after the other, or padding. *)
Theorem C149_any : forall ign data, bytes data -> small data ->
  exists ok ms valid, parse_ber ign data = Ret (ok, ms, valid) /\ 0 <= valid <= Zlen data /\ (ok = true -> valid = Zlen data) /\ StronglySorted Z.lt (map begins ms) /\
    Forall (fun m => match m with
      | Tag off tag => exists pre id post, data = pre ++ id ++ post /\ Zlen pre = off /\ identifier id /\ be id = tag /\ off + Zlen id <= valid
      | Pad off n => 0 <= off /\ 0 < n /\ off + n <= valid end) ms.
Proof.
  intros ign data B S. destruct (walk_any ign (Datatypes.S (length data)) data [] [] data data 0 0) as (ok & ms & v & E & R & O & M & _ & Q); [now rewrite app_nil_r|reflexivity|lia|exact B|exact S|lia|].
  exists ok, ms, v. split; [exact E|]. split; [lia|]. split; [intros X; specialize (O X); lia|]. split; [exact Q|]. eapply Forall_impl; [|exact M]. intros [off tag|off n] H; exact H.
Qed.
Print Assumptions C149_any.
(** White space is marked as an invalid character if something else in its line is invalid. *)
Theorem C149_space_refuted : exists blocks fss text k, Forall (Forall latin) blocks /\ highlight false true (0, 0) blocks = Ret fss /\
  nth_error blocks 0 = Some text /\ nth_error text k = Some 32 /\ nth k (nth 0 fss []) plain_fmt = non_hex_fmt.
Proof. exists [lit "5A 01 11 5"]. eexists _, _, 2%nat. split; [repeat constructor; unfold latin; lia|]. split; [vm_compute; reflexivity|]. split; [reflexivity|]. split; reflexivity. Qed.
Print Assumptions C149_space_refuted.
Example C149_ex : highlight true true (6, 4) [lit "7003"; lit "5A0111 0G1"] =
  Ret [[tag_fmt; tag_fmt; plain_fmt; plain_fmt];
       [tag_fmt; tag_fmt; selected_fmt plain_fmt; selected_fmt plain_fmt; selected_fmt plain_fmt; selected_fmt plain_fmt; non_hex_fmt; invalid_fmt; non_hex_fmt; invalid_fmt]].
Proof. vm_compute. reflexivity. Qed.

(** ** C150: any text *)
Lemma parse_any ign data : bytes data -> small data -> exists ok ms valid, parse_ber ign data = Ret (ok, ms, valid).
Proof. intros B S. destruct (C149_any ign data B S) as (ok & ms & v & E & _). eauto. Qed.
Lemma stripped_plain blocks : Forall (Forall latin) blocks -> stripped (plain_text blocks) = stripped (List.concat blocks).
Proof.
  assert (C : forall b, Forall latin b -> stripped (map plain_char b) = stripped b).
  { induction 1 as [|c b Hc F IH]; [reflexivity|]. unfold stripped in *. cbn [map filter]. rewrite IH. unfold plain_char. unfold latin in Hc. destruct (Z.eqb_spec c 0xA0) as [-> |N]; [reflexivity|].
    replace ((c =? 0xFDD0) || (c =? 0xFDD1) || (c =? 0x2028) || (c =? 0x2029)) with false by lia. reflexivity. }
  induction 1 as [|b bs Hb F IH]; [reflexivity|]. cbn [List.concat]. rewrite stripped_app, <- IH, <- (C b Hb). destruct bs as [|b2 bs]; [cbn [plain_text]; now rewrite app_nil_r|].
  change (plain_text (b :: b2 :: bs)) with (map plain_char b ++ 10 :: plain_text (b2 :: bs)). rewrite stripped_app. reflexivity.
Qed.
Lemma populate_any e ign dec data : arrays e -> bytes data -> small data ->
  (populate e ign dec data = UB /\ has_unprintable data) \/
  exists ok l ms valid, populate e ign dec data = Ret (l, valid) /\ parse_ber ign data = Ret (ok, ms, valid) /\ map begins ms = map fst (flat_map fields_in l) /\ Forall (field_at data) (flat_map fields_in l).
Proof.
  intros A B S. unfold populate, parse_ber, ber_itr_init. destruct (tree_any e ign dec A (Datatypes.S (length data)) data [] [] data data 0 0) as [(-> & U)|(ok & l & ms & v & -> & -> & _ & M & F)]; [now rewrite app_nil_r|reflexivity|exists []; auto|exact B|exact S|lia|left; auto|].
  right. exists ok, l, ms, v. auto.
Qed.
Lemma show_any e ign dec text : arrays e -> small text -> (forall ds c r, stripped text = ds ++ c :: r -> Forall hex_char ds -> c < 256) ->
  exists data rest, reads (stripped text) data rest /\ bytes data /\ small data /\
   ((show_data e ign dec text = UB /\ has_unprintable data) \/
    exists ok l ms valid pre post, populate e ign dec data = Ret (l, valid) /\ parse_ber ign data = Ret (ok, ms, valid) /\ stripped text = pre ++ post /\ Zlen pre = 2 * valid /\ 0 <= valid <= Zlen data /\
      (post = [] -> show_data e ign dec text = Ret l) /\ (post <> [] -> show_data e ign dec text = Ret (l ++ [line_item (lit "Remaining invalid data: " ++ post) []]))).
Proof.
  intros A S H. destruct (reads_ex (stripped text) H) as (n & Hn & Rd & Ln & Le). set (data := from_hex (firstn (Z.to_nat (even_down n)) (stripped text))) in *. exists data, (skipn (Z.to_nat (even_down n)) (stripped text)). split; [exact Rd|].
  assert (Rd' := Rd). destruct Rd' as (ds & Es & Oc & _). pose proof (octets_of_ok _ _ Oc) as (Ol & B & _ & _). split; [exact B|].
  assert (Sd : small data). { unfold small, Zlen in *. assert ((length (stripped text) <= length text)%nat) by apply filter_le. lia. } split; [exact Sd|].
  destruct text as [|c0 text0] eqn:Et.
  { right. exists true, [], [], 0, [], []. change (stripped []) with (@nil Z) in *. assert (D0 : data = []) by (subst data; now rewrite firstn_nil). rewrite D0. split; [reflexivity|]. split; [reflexivity|]. split; [reflexivity|]. split; [reflexivity|]. split; [cbn; lia|]. split; [reflexivity|contradiction]. }
  rewrite <- Et in *. assert (Sh : show_data e ign dec text = (let* (l, valid) := populate e ign dec data in if valid * 2 <? Zlen (stripped text) then Ret (l ++ [plain_item (lit "Remaining invalid data: " ++ skipn (Z.to_nat (valid * 2)) (stripped text)) []]) else Ret l)).
  { unfold show_data. rewrite Et. rewrite <- Et. rewrite Hn. cbn [bind]. subst data. rewrite <- Et. reflexivity. }
  rewrite Sh. destruct (populate_any e ign dec data A B Sd) as [(-> & U)|(ok & l & ms & v & -> & Pb & M & F)]; [left; auto|]. right. cbn [bind].
  destruct (C149_any ign data B Sd) as (ok' & ms' & v' & Pb' & Rv & _). rewrite Pb in Pb'. injection Pb' as <- <- <-.
  assert (Lp : Zlen (firstn (Z.to_nat (v * 2)) (stripped text)) = 2 * v) by (unfold Zlen in *; rewrite firstn_length; lia).
  exists ok, l, ms, v, (firstn (Z.to_nat (v * 2)) (stripped text)), (skipn (Z.to_nat (v * 2)) (stripped text)). split; [reflexivity|]. split; [exact Pb|]. split; [symmetry; apply firstn_skipn|]. split; [exact Lp|]. split; [exact Rv|].
  assert (Lq : Zlen (skipn (Z.to_nat (v * 2)) (stripped text)) = Zlen (stripped text) - 2 * v) by (unfold Zlen in *; rewrite skipn_length; lia).
  set (post := skipn (Z.to_nat (v * 2)) (stripped text)) in *. destruct (Z.ltb_spec (v * 2) (Zlen (stripped text))) as [Hlt|Hge].
  - split; [intros X; rewrite X in Lq; change (Zlen []) with 0 in Lq; lia|reflexivity].
  - split; [reflexivity|]. intros X. exfalso. apply X. destruct post; [reflexivity|]. unfold Zlen in Lq at 1. cbn [length] in Lq. lia.
Qed.
Theorem C150_text_partial : forall e ign dec emph sel blocks, arrays e -> Forall (Forall latin) blocks -> small (plain_text blocks) ->
  (exists fss, highlight ign emph sel blocks = Ret fss) /\
  ((exists l, show_data e ign dec (plain_text blocks) = Ret l) \/
   (show_data e ign dec (plain_text blocks) = UB /\ exists data rest, reads (stripped (List.concat blocks)) data rest /\ has_unprintable data)).
Proof.
  intros e ign dec emph sel blocks A F S. assert (Fs : Forall latin (stripped (List.concat blocks))) by (apply stripped_Forall, Forall_concat, F).
  assert (Hl : forall ds c r, stripped (plain_text blocks) = ds ++ c :: r -> Forall hex_char ds -> c < 256).
  { intros ds c r E _. rewrite stripped_plain in E by exact F. rewrite E in Fs. apply Forall_app in Fs as [_ Fs]. inversion Fs; subst. unfold latin in *. lia. }
  destruct (show_any e ign dec (plain_text blocks) A S Hl) as (data & rest & Rd & B & Sd & Q). split.
  - unfold highlight, parse_blocks. rewrite stripped_concat. rewrite stripped_plain in Rd by exact F. destruct (reads_prefix _ _ _ Rd) as (n & -> & Ed & _); [rewrite <- stripped_plain by exact F; exact Hl|]. cbn [bind]. rewrite Ed.
    destruct (parse_any ign data B Sd) as (ok & ms & v & ->). cbn [bind p_blocks]. destruct (highlight_blocks_ok (mkParsed (block_data 0 blocks) (v * 2) (tag_positions ms) (pad_positions ms)) emph sel blocks 0 F) as (fss & E & _). exists fss. exact E.
  - rewrite stripped_plain in Rd by exact F. destruct Q as [(E & U)|(ok & l & ms & v & pre & post & _ & _ & _ & _ & _ & E1 & E2)]; [right; split; [exact E|]; exists data, rest; auto|]. left. destruct post; [exists l; apply E1; reflexivity|eexists; apply E2; discriminate].
Qed.
Print Assumptions C150_text_partial.
(** The argument of isxdigit can be out of range: any other character that is typed or pasted. *)
Theorem C150_text_refuted : exists blocks, highlight false true (0, 0) blocks = UB /\ show_data ex_env false true (plain_text blocks) = UB.
Proof. exists [lit "5A0111" ++ [0x20AC]]. split; vm_compute; reflexivity. Qed.
Print Assumptions C150_text_refuted.
(** That is the only way: the first character that is not a hex digit. *)
Theorem C150_first_refuted : forall e ign dec blocks ds c r, stripped (plain_text blocks) = ds ++ c :: r -> Forall hex_char ds -> 256 <= c -> show_data e ign dec (plain_text blocks) = UB.
Proof.
  intros e ign dec blocks ds c r E F L. unfold show_data. destruct (plain_text blocks) as [|c0 t] eqn:Et; [destruct ds; discriminate E|]. rewrite <- Et in *. rewrite E, hex_prefix_UB; [reflexivity| |exact L].
  eapply Forall_impl; [|exact F]. intros x Hx. apply hex_char_ok, Hx.
Qed.
Print Assumptions C150_first_refuted.
Theorem C150_same_text : forall blocks, Forall (Forall latin) blocks -> stripped (plain_text blocks) = stripped (List.concat blocks).
Proof. exact stripped_plain. Qed.
Print Assumptions C150_same_text.
Example C150_ex : show_data ex_env false false (plain_text [lit "5A01"; lit " 11 e9!"; [0xE9; 0xA0; 0x33]]) =
  Ret [Item (mkAttr (Some (0, 3)) false (lit "5A : [1] 11") (lit "5A | Application Primary Account Number (PAN) : 11") (lit "5A : [1] 11") false) [Item (mkAttr None false [] [] (lit "[1] 11") true) []];
       line_item (lit "Remaining invalid data: e9!" ++ [0xE9; 0x33]) []].
Proof. vm_compute. reflexivity. Qed.

(** ** C151: the tree *)
Theorem C151_tree_partial : forall e ign dec data ps valid ok, arrays e -> bytes data -> small data -> data_layout ign data ps valid ok ->
  (populate e ign dec data = UB /\ has_unprintable data) \/
  exists l, populate e ign dec data = Ret (l, valid) /\ tree_shown (describes e value_str) ign dec (Zlen data) 0 data l valid ok.
Proof.
  intros e ign dec data ps valid ok A B S L. unfold populate, ber_itr_init. pose proof (tree_layout e ign dec A _ _ _ _ _ _ L (Datatypes.S (length data)) data [] eq_refl eq_refl B S ltac:(lia)) as Q. change (Zlen []) with 0 in Q.
  destruct Q as [(-> & U)|(l & -> & T)]; [left; auto|]. right. exists l. split; [reflexivity|exact T].
Qed.
Print Assumptions C151_tree_partial.
(** C151 is false: a CDOL1 with the entry 84 0E cannot be shown. *)
Theorem C151_tree_refuted : exists e data ts, arrays e /\ forest true data ts /\ small data /\ populate e false true data = UB.
Proof.
  exists ex_env, [0x8C; 0x02; 0x84; 0x0E], [Leaf 0x8C [0x84; 0x0E]]. split; [repeat split; reflexivity|]. split; [|split; [unfold small, Zlen; cbn [length]; lia|vm_compute; reflexivity]].
  apply (fo_leaf true [0x8C; 0x02; 0x84; 0x0E] 0x8C 0x80 [0x84; 0x0E] [] []); [|reflexivity|constructor]. split; [repeat constructor; unfold is_byte; lia|]. exists [0x8C], [2].
  split; [reflexivity|]. split; [constructor; unfold is_byte; vm_compute; intuition discriminate|]. split; [reflexivity|]. split; [constructor; vm_compute; intuition discriminate|reflexivity].
Qed.
Print Assumptions C151_tree_refuted.
(** The tree and the highlighting agree on any data: as many octets are valid, and there is an item for each mark, where it is. *)
Theorem C151_agree : forall e ign dec data l valid, arrays e -> bytes data -> small data -> populate e ign dec data = Ret (l, valid) ->
  exists ok ms, parse_ber ign data = Ret (ok, ms, valid) /\ map begins ms = map fst (flat_map fields_in l).
Proof.
  intros e ign dec data l valid A B S E. destruct (populate_any e ign dec data A B S) as [(U & _)|(ok & l' & ms & v & E' & P & M & _)]; [congruence|]. rewrite E in E'. injection E' as <- <-. eauto.
Qed.
Print Assumptions C151_agree.
Example C151_ex : (let* (l, n) := populate ex_env true true [0x70; 0x09; 0x9F; 0x38; 0x03; 0x9F; 0x02; 0x06; 0x50; 0x01; 0x41; 0xFF; 0xFF; 0xFF; 0xFF; 0xFF] in Ret (map (fun i => (a_text (i_attr i), map (fun j => (a_text (i_attr j), map (fun k => (a_text (i_attr k), map (fun m => a_text (i_attr m)) (i_kids k))) (i_kids j))) (i_kids i))) l, n)) =
  Ret ([(lit "70 | EMV Data Template", [(lit "9F38 | Processing Options Data Object List (PDOL)", [(lit "[3] 9F 02 06", []); (lit "Data Object List:", [lit "9F02 | Amount, Authorised (Numeric) [6]"])]);
          (lit "50 | Application Label : " ++ [34; 65; 34], [(lit "[1] 41", [])])]);
        (lit "Padding : [5] FF FF FF FF FF", [])], 16).
Proof. vm_compute. reflexivity. Qed.

(** ** C152: decoding can be turned on and off *)
Theorem C152_toggle : forall e ign dec dec' data,
  populate e ign dec' data = (let* (l, valid) := populate e ign dec data in Ret (set_decode_fields dec' l, valid)).
Proof. intros. apply populate_toggle. Qed.
Print Assumptions C152_toggle.
Example C152_ex : (let* (l, n) := populate ex_env false false [0x70; 0x03; 0x50; 0x01; 0x41] in Ret (map (fun i => (a_text (i_attr i), map (fun j => (a_text (i_attr j), map (fun k => a_hidden (i_attr k)) (i_kids j))) (i_kids i))) (set_decode_fields true l))) =
    Ret [(lit "70 | EMV Data Template", [(lit "50 | Application Label : " ++ [34; 65; 34], [false])])] /\
  (let* (l, n) := populate ex_env false false [0x70; 0x03; 0x50; 0x01; 0x41] in Ret (map (fun i => (a_text (i_attr i), map (fun j => (a_text (i_attr j), map (fun k => a_hidden (i_attr k)) (i_kids j))) (i_kids i))) l)) =
    Ret [(lit "70 : [3]", [(lit "50 : [1] 41", [true])])].
Proof. split; vm_compute; reflexivity. Qed.

(** ** C153: selection *)
Lemma in_tree_fields i p l : in_tree i l -> a_src (i_attr i) = Some p -> In p (flat_map fields_in l).
Proof.
  intros T E. induction T as [l I|a kids l I T IH].
  - apply in_flat_map. exists i. split; [exact I|]. destruct i as [a k]. cbn [i_attr] in E. cbn [fields_in]. rewrite E. left. reflexivity.
  - apply in_flat_map. exists (Item a kids). split; [exact I|]. cbn [fields_in]. destruct (a_src a); [right|]; exact IH.
Qed.
Lemma base_bg emph ps valid i f : base_fmt emph ps valid i f -> f_bg f = None.
Proof. now destruct 1. Qed.
Lemma stands_some enc : stands_for enc -> 0 < Zlen enc.
Proof.
  intros [(tag & fl & v & H)|[(id & rest & -> & Hid & _)|N]].
  - pose proof (encodes_vlen _ _ _ _ H). unfold Zlen. lia.
  - rewrite Zlen_app3. pose proof (id_pos _ Hid). pose proof (Zlen_nonneg (128 :: rest)). lia.
  - destruct N as [N _]. destruct enc; [contradiction|]. unfold Zlen. cbn [length]. lia.
Qed.
Theorem C153_selection : forall e ign dec emph blocks data rest ps valid ok l total i off n sel0,
  arrays e -> Forall (Forall latin) blocks -> reads (stripped (List.concat blocks)) data rest -> small data -> data_layout ign data ps valid ok ->
  populate e ign dec data = Ret (l, total) -> in_tree i l -> a_src (i_attr i) = Some (off, n) ->
  exists pre enc post fss, data = pre ++ enc ++ post /\ Zlen pre = off /\ Zlen enc = n /\ stands_for enc /\
    highlight ign emph (press i sel0) blocks = Ret fss /\
    forall before text after a c b, blocks = before ++ text :: after -> text = a ++ c :: b ->
      let f := nth (length a) (nth (length before) fss []) plain_fmt in
      let k := Zlen (stripped (List.concat before ++ a)) in
      f_bg f = Some Base00 <-> hex_char c /\ 2 * Zlen pre <= k < 2 * Zlen (pre ++ enc).
Proof.
  intros e ign dec emph blocks data rest ps valid ok l total i off n sel0 A Fl Rd Sm La Po T Es.
  assert (B : bytes data) by (destruct Rd as (ds & _ & Oc & _); apply (octets_of_ok _ _ Oc)).
  destruct (populate_any e ign dec data A B Sm) as [(U & _)|(ok' & l' & ms & v & E' & _ & _ & F)]; [congruence|]. rewrite Po in E'. injection E' as <- <-.
  pose proof (in_tree_fields i (off, n) l T Es) as I. rewrite Forall_forall in F. destruct (F _ I) as (pre & enc & post & Ed & Ep & En & St). cbn [fst snd] in Ep, En. pose proof (stands_some enc St) as Ne.
  assert (Pr : press i sel0 = (off * 2, n * 2)) by (unfold press; rewrite Es; reflexivity).
  assert (Le : off + n <= Zlen data) by (rewrite Ed, !Zlen_app3; pose proof (Zlen_nonneg post); lia). pose proof (Zlen_nonneg pre) as P0.
  destruct (highlight_ok ign emph (press i sel0) blocks data rest ps valid ok Fl Rd Sm La) as (fss & H & _ & Q); [rewrite Pr; cbn [fst snd]; lia|].
  exists pre, enc, post, fss. split; [exact Ed|]. split; [exact Ep|]. split; [exact En|]. split; [exact St|]. split; [exact H|]. intros before text after a c b Eb Et.
  destruct (Q before text after Eb) as [_ Qc]. destruct (Qc a c b Et) as (Q1 & Q2 & Q3 & _). set (f := nth (length a) (nth (length before) fss []) plain_fmt) in *. set (k := Zlen (stripped (List.concat before ++ a))) in *. cbv zeta. rewrite Zlen_app3.
  assert (D : hex_char c \/ ~ hex_char c) by (destruct (is_xdigit c) eqn:X; [left; apply hex_char_ok, X|right; intros Y; apply hex_char_ok in Y; congruence]).
  destruct D as [D|D].
  - specialize (Q1 D). rewrite Pr in Q1. split.
    + intros Bg. split; [exact D|]. destruct Q1 as [f' S0 R Bf|f' N Bf]; cbn [fst snd] in *; [lia|]. apply base_bg in Bf. congruence.
    + intros [_ R]. destruct Q1 as [f' S0 R' Bf|f' N Bf]; cbn [fst snd] in *; [reflexivity|]. exfalso. apply N. lia.
  - assert (Nf : f_bg f <> Some Base00). { destruct (q_space c) eqn:Qs; [destruct (Q3 ltac:(unfold visible; congruence)) as [-> | ->]; discriminate|rewrite (Q2 D Qs); discriminate]. }
    split; [intros X; contradiction|intros [X _]; contradiction].
Qed.
Print Assumptions C153_selection.
Example C153_ex : (let* (l, n) := populate ex_env false true [0x70; 0x03; 0x50; 0x01; 0x41] in match l with Item _ [j] :: _ => let* fss := highlight false true (press j (0, 0)) [lit "7003 50"; lit "01 41"] in Ret (map (map (fun f => match f_bg f with Some Base00 => true | _ => false end)) fss) | _ => UB end) =
  Ret [[false; false; false; false; false; true; true]; [true; true; false; true; true]].
Proof. vm_compute. reflexivity. Qed.

(** ** C154: nothing is left out *)
Theorem C154_remaining : forall e ign dec text, arrays e -> small text -> (forall ds c r, stripped text = ds ++ c :: r -> Forall hex_char ds -> c < 256) ->
  exists data rest, reads (stripped text) data rest /\
   ((show_data e ign dec text = UB /\ has_unprintable data) \/
    exists l valid pre post, populate e ign dec data = Ret (l, valid) /\ stripped text = pre ++ post /\ Zlen pre = 2 * valid /\ valid <= Zlen data /\
      (post = [] -> show_data e ign dec text = Ret l) /\
      (post <> [] -> show_data e ign dec text = Ret (l ++ [line_item (lit "Remaining invalid data: " ++ post) []]))).
Proof.
  intros e ign dec text A S H. destruct (show_any e ign dec text A S H) as (data & rest & Rd & _ & _ & [Q|(ok & l & ms & v & pre & post & P1 & _ & P2 & P3 & P4 & P5 & P6)]); exists data, rest; (split; [exact Rd|]); [left; exact Q|].
  right. exists l, v, pre, post. split; [exact P1|]. split; [exact P2|]. split; [exact P3|]. split; [lia|]. split; assumption.
Qed.
Print Assumptions C154_remaining.
Example C154_ex : (let* l := show_data ex_env false true (lit "50 01 41 70 05 50 01 4") in Ret (map (fun i => a_text (i_attr i)) l)) = Ret [lit "50 | Application Label : " ++ [34; 65; 34]; lit "Remaining invalid data: 70055001" ++ lit "4"].
Proof. vm_compute. reflexivity. Qed.

(** ** C155: padding *)
(** The viewer takes 15 octets of an AES block for padding, but the tools do not. *)
Definition fifteen : list Z := [0x50; 0x0F] ++ repeat 0x41 15 ++ repeat 0xFF 15.
Theorem C155_agreement_refuted : exists data ms txt code, bytes data /\ Zlen data = 32 /\ parse_ber true data = Ret (true, ms, 32) /\ In (Pad 17 15) ms /\
  print_emv_text ex_env [] (repeat 0 2048) data 0 true = Ret (txt ++ error_text code 17 (repeat 0xFF 15)).
Proof.
  exists fifteen. exists [Tag 0 0x50; Pad 17 15], (lit "50 | Application Label : [15] 41 41 41 41 41 41 41 41 41 41 41 41 41 41 41 " ++ [34] ++ repeat 65 15 ++ [34; 10]), 4.
  split; [repeat constructor; unfold is_byte; lia|]. split; [reflexivity|]. split; [vm_compute; reflexivity|]. split; [right; left; reflexivity|]. vm_compute. reflexivity.
Qed.
Print Assumptions C155_agreement_refuted.
(** Padding as of ISO/IEC 9797-1, an octet 80 and zeros, looks like fields. *)
Theorem C155_iso_refuted : exists enc pad ms, Zlen (enc ++ pad) = 8 /\ pad = 0x80 :: repeat 0 4 /\ parse_ber true (enc ++ pad) = Ret (true, ms, 8) /\ In (Tag (Zlen enc) 0x80) ms.
Proof. exists [0x50; 0x01; 0x41], (0x80 :: repeat 0 4). eexists. split; [reflexivity|]. split; [reflexivity|]. split; [vm_compute; reflexivity|]. right; left. reflexivity. Qed.
Print Assumptions C155_iso_refuted.
Lemma forest_then ign : forall enc ts, forest true enc ts -> forall len off tail ps off' ok, layout ign len (off + Zlen enc) tail ps off' ok ->
  exists ps1, layout ign len off (enc ++ tail) (ps1 ++ ps) off' ok /\ Forall (fun p => exists o n, p = TagAt o n) ps1.
Proof.
  induction 1 as [|enc tag flags v encs ts He Hf Hl IH|enc tag flags v kids encs ts He Hf Hi IHi Hl IH|id v kids encs ts Q]; intros len off tail ps off' ok L; [| | |discriminate].
  - exists []. change (Zlen []) with 0 in L. rewrite Z.add_0_r in L. split; [exact L|constructor].
  - destruct He as [Hvb (id & lf & Ep & Hid & Ht & Hlf & Hfl)]. assert (C : ~ constructed (hd 0 id)) by (intros C; rewrite Hfl in Hf; apply (constructed_flag id Hid) in C; lia).
    replace (off + Zlen (enc ++ encs)) with (off + Zlen id + Zlen lf + Zlen v + Zlen encs) in L by (rewrite Ep, !Zlen_app3; lia). destruct (IH len _ tail ps off' ok L) as (ps1 & L1 & F). exists (TagAt off (Zlen id) :: ps1). split; [|constructor; [eauto|exact F]].
    rewrite Ep, <- !app_assoc. apply la_leaf; assumption.
  - destruct He as [Hvb (id & lf & Ep & Hid & Ht & Hlf & Hfl)]. assert (C : constructed (hd 0 id)) by (rewrite Hfl in Hf; apply (constructed_flag id Hid); exact Hf).
    replace (off + Zlen (enc ++ encs)) with (off + Zlen id + Zlen lf + Zlen v + Zlen encs) in L by (rewrite Ep, !Zlen_app3; lia). destruct (IH len _ tail ps off' ok L) as (ps1 & L1 & F). destruct (forest_layout ign v kids Hi (Zlen v) (off + Zlen id + Zlen lf)) as (psi & Li & Fi).
    exists (TagAt off (Zlen id) :: psi ++ ps1). split; [|constructor; [eauto|apply Forall_app; split; assumption]]. rewrite Ep, <- !app_assoc. cbn [app]. rewrite <- app_assoc. apply la_node; assumption.
Qed.
Theorem C155_agreement_partial : forall e prefix junk enc ts bad d, arrays e -> (11 <= length junk)%nat -> forest true enc ts -> no_object bad -> bytes bad -> small (enc ++ bad) ->
  ~ (Zlen (enc ++ bad) mod 16 = 0 /\ Zlen bad = 15) ->
  (print_emv_text e prefix junk (enc ++ bad) d true = UB /\ Exists (fun f => unprintable (f_tag f) (f_val f) junk) (flat_map leaves ts)) \/
  exists txt code ms, Forall (fun m => exists o t, m = Tag o t) ms /\
    ((parse_ber true (enc ++ bad) = Ret (true, ms ++ [Pad (Zlen enc) (Zlen bad)], Zlen (enc ++ bad)) /\ print_emv_text e prefix junk (enc ++ bad) d true = Ret (txt ++ padding_text prefix d bad)) \/
     (parse_ber true (enc ++ bad) = Ret (false, ms, Zlen enc) /\ print_emv_text e prefix junk (enc ++ bad) d true = Ret (txt ++ error_text code (Zlen enc) bad))).
Proof.
  intros e prefix junk enc ts bad d A Lj F N B S X. destruct (print_invalid e prefix junk enc bad ts d true A Lj F N B S) as [U|(txt & code & _ & _ & _ & P1 & P2)]; [left; exact U|]. right. exists txt, code.
  assert (Eq : padding (enc ++ bad) bad <-> block_padding (Zlen (enc ++ bad)) (Zlen bad)) by (unfold padding, block_padding; lia).
  assert (D : block_padding (Zlen (enc ++ bad)) (Zlen bad) \/ ~ block_padding (Zlen (enc ++ bad)) (Zlen bad)) by (unfold block_padding; lia).
  assert (Bb : bytes (enc ++ bad)) by (apply bytes_app; split; [eapply forest_bytes; exact F|exact B]).
  assert (T : forall ms ps, Forall2 mark_at ms ps -> Forall (fun p => exists o n, p = TagAt o n) ps -> Forall (fun m => exists o t, m = Tag o t) ms).
  { clear. induction 1 as [|m p ms ps M F IH]; intros Fp; [constructor|]. inversion Fp as [|? ? (o & n & ->) Fq]; subst. constructor; [|exact (IH Fq)]. destruct m; cbn in M; [eauto|contradiction]. }
  destruct D as [D|D].
  - destruct (forest_then true enc ts F (Zlen (enc ++ bad)) 0 bad [PadAt (Zlen enc) (Zlen bad)] (Zlen (enc ++ bad)) true) as (ps & L & Fp).
    { rewrite Z.add_0_l. pose proof (la_pad true (Zlen (enc ++ bad)) (Zlen enc) bad N eq_refl D) as Q. rewrite <- Zlen_app3 in Q. exact Q. }
    destruct (parse_layout true (enc ++ bad) _ _ _ Bb S L) as (ms & E & M). apply Forall2_app_inv_r in M as (m1 & m2 & M1 & M2 & ->). inversion M2 as [|m ? mm ? Mp M0]; subst. inversion M0; subst.
    assert (Em : m = Pad (Zlen enc) (Zlen bad)) by (destruct m; cbn in Mp; [contradiction|destruct Mp; subst; reflexivity]). subst m.
    exists m1. split; [exact (T m1 ps M1 Fp)|]. left. split; [exact E|]. apply P1. split; [reflexivity|]. apply Eq, D.
  - destruct (forest_then true enc ts F (Zlen (enc ++ bad)) 0 bad [] (Zlen enc) false) as (ps & L & Fp).
    { rewrite Z.add_0_l. apply la_bad; [exact N|]. intros [_ Y]. exact (D Y). }
    rewrite app_nil_r in L. destruct (parse_layout true (enc ++ bad) _ _ _ Bb S L) as (ms & E & M). exists ms. split; [exact (T ms ps M Fp)|]. right. split; [exact E|]. apply P2. intros [_ Y]. apply D, Eq, Y.
Qed.
Print Assumptions C155_agreement_partial.
Example C155_ex : parse_ber true [0x50; 0x01; 0x41; 0xFF; 0xFF; 0xFF; 0xFF; 0xFF] = Ret (true, [Tag 0 0x50; Pad 3 5], 8) /\ parse_ber false [0x50; 0x01; 0x41; 0xFF; 0xFF; 0xFF; 0xFF; 0xFF] = Ret (false, [Tag 0 0x50], 3).
Proof. split; vm_compute; reflexivity. Qed.
