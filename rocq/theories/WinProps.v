(** The window of emv-viewer over time (C159 to C161). *)
From Coq Require Import String.
From Verif Require Import Base BaseLemmas BerModel BerSpec BerProofs TlvSpec StrModel InfoModel InfoSpec InfoProofs InfoProps ToolsModel PrintModel ViewModel ViewSpec ViewWalk ViewPaint ViewTree ViewProps WinModel.
Open Scope string_scope.
Open Scope Z_scope.
Open Scope list_scope.
Notation length := List.length.

Lemma show_toggle e ign dec dec' text : show_data e ign dec' text = (let* l := show_data e ign dec text in Ret (set_decode_fields dec' l)).
Proof.
  unfold show_data. destruct text as [|c text]; [reflexivity|]. destruct (hex_prefix _) as [n| |]; cbn [bind]; [|reflexivity|reflexivity].
  rewrite (C152_toggle e ign dec dec'). destruct (populate e ign dec _) as [[l v]| |]; cbn [bind]; [|reflexivity|reflexivity].
  destruct (_ <? _); cbn [bind]; [|reflexivity]. unfold set_decode_fields. rewrite map_app. reflexivity.
Qed.
(** The state of the window is a function of what the user sees and did last. *)
Definition consistent (e : env) (w : win) : Prop :=
  h_emph w = w_tags w /\ h_ign w = w_pad w /\ t_ign w = w_pad w /\ t_dec w = w_dec w /\
  match h_parsed w with Some p => parse_blocks (w_pad w) (w_blocks w) = Ret p | None => w_blocks w = [[]] /\ w_items w = [] /\ h_sel w = (-1, 0) end /\
  rehighlight w = Ret (w_fmts w) /\
  exists text, show_data e (w_pad w) (w_dec w) text = Ret (w_items w) /\ (w_timer w = false -> text = plain_text (w_blocks w)).
Ltac fields := cbn [w_blocks w_tags w_pad w_dec h_ign h_emph h_sel h_parsed w_fmts t_ign t_dec w_items w_timer with_fmts] in *.
Lemma text_changed bl tg pd dc hi he sl pa fm ti td it tm w : on_text_changed (mkWin bl tg pd dc hi he sl pa fm ti td it tm) = Ret w ->
  exists p f, parse_blocks hi bl = Ret p /\ highlight_blocks p he sl (p_blocks p) bl = Ret f /\ w = mkWin bl tg pd dc hi he sl (Some p) f ti td it true.
Proof.
  intros Q. unfold on_text_changed in Q. fields. apply bind_Ret_inv in Q as (p & Ep & Q). apply bind_Ret_inv in Q as (f & Ef & Q). injection Q as <-. unfold rehighlight in Ef. fields. exists p, f. auto.
Qed.
Lemma step_consistent e w ev w' : consistent e w -> step e w ev = Ret w' -> consistent e w'.
Proof.
  destruct w as [bl tg pd dc hi he sl pa fm ti td it tm]. intros (A & B & C & D & P & H & text & S & T) E. fields. subst he hi ti td.
  destruct ev as [blocks| |b|b|b|path]; cbn [step] in E; fields.
  - apply text_changed in E as (p & f & Ep & Ef & ->). unfold consistent, rehighlight; fields. repeat (split; [first [reflexivity|assumption]|]). exists text. split; [exact S|discriminate].
  - destruct tm; [|injection E as <-; unfold consistent; fields; repeat (split; [first [reflexivity|assumption]|]); exists text; auto].
    unfold parse_data in E. fields. apply bind_Ret_inv in E as (l & El & E). injection E as <-. unfold consistent, rehighlight in *; fields. do 4 (split; [reflexivity|]). split; [|split; [exact H|exists (plain_text bl); auto]].
    destruct pa; [exact P|]. destruct P as (Pb & _ & Ps). subst bl. injection El as <-. auto.
  - destruct (Bool.eqb b tg); [injection E as <-; unfold consistent; fields; repeat (split; [first [reflexivity|assumption]|]); exists text; auto|].
    apply bind_Ret_inv in E as (f & Ef & E). injection E as <-. unfold consistent, rehighlight in *; fields. repeat (split; [first [reflexivity|assumption]|]). exists text; auto.
  - destruct (Bool.eqb b pd); [injection E as <-; unfold consistent; fields; repeat (split; [first [reflexivity|assumption]|]); exists text; auto|].
    apply bind_Ret_inv in E as (f & Ef & E). fields. apply bind_Ret_inv in E as (w1 & E1 & E). apply text_changed in E1 as (p & f1 & Ep & Ef1 & ->). fields. unfold parse_data in E. fields. apply bind_Ret_inv in E as (l & El & E). injection E as <-.
    unfold consistent, rehighlight in *; fields. repeat (split; [first [reflexivity|assumption]|]). exists (plain_text bl). auto.
  - destruct (Bool.eqb b dc) eqn:Eb; [injection E as <-; unfold consistent; fields; repeat (split; [first [reflexivity|assumption]|]); exists text; auto|].
    injection E as <-. unfold consistent, rehighlight in *; fields. do 4 (split; [reflexivity|]). split; [destruct pa; [exact P|]; destruct P as (Pb & -> & Ps); destruct (Bool.eqb dc b); auto|]. split; [exact H|]. exists text. split; [|exact T].
    rewrite (show_toggle e pd dc b), S. cbn [bind]. destruct (Bool.eqb dc b) eqn:Ec; [|reflexivity]. apply Bool.eqb_prop in Ec. subst. now rewrite Bool.eqb_reflx in Eb.
  - destruct (item_at it path) as [i|] eqn:Ei; [|injection E as <-; unfold consistent; fields; repeat (split; [first [reflexivity|assumption]|]); exists text; auto].
    destruct (a_src (i_attr i)); [|injection E as <-; unfold consistent; fields; repeat (split; [first [reflexivity|assumption]|]); exists text; auto].
    apply bind_Ret_inv in E as (f & Ef & E). injection E as <-. unfold consistent, rehighlight in *; fields. do 4 (split; [reflexivity|]). split; [destruct pa; [exact P|]; destruct P as (_ & -> & _)|split; [exact Ef|exists text; auto]].
    exfalso. destruct path as [|[|k] p2]; discriminate Ei.
Qed.
Lemma win0_consistent e : consistent e win0.
Proof. unfold consistent, rehighlight. cbn. do 4 (split; [reflexivity|]). split; [auto|]. split; [reflexivity|]. exists []. split; reflexivity. Qed.
Lemma run_consistent e : forall evs w w', consistent e w -> run e w evs = Ret w' -> consistent e w'.
Proof.
  induction evs as [|ev evs IH]; intros w w' C E; cbn [run] in E; [injection E as <-; exact C|]. apply bind_Ret_inv in E as (w1 & E1 & E). eapply IH; [|exact E]. eapply step_consistent; eassumption.
Qed.
Lemma consistent_shows e w : consistent e w -> highlight (w_pad w) (w_tags w) (h_sel w) (w_blocks w) = Ret (w_fmts w).
Proof.
  intros (A & B & _ & _ & P & H & _). unfold highlight. unfold rehighlight in H. destruct (h_parsed w) as [p|].
  - rewrite P. cbn [bind]. rewrite <- A. exact H.
  - destruct P as (Pb & _ & Ps). rewrite Pb in H. injection H as <-. rewrite Pb, Ps. destruct (w_pad w), (w_tags w); reflexivity.
Qed.

(** ** C159: the display follows *)
Theorem C159_display : forall e evs w, run e win0 evs = Ret w ->
  highlight (w_pad w) (w_tags w) (h_sel w) (w_blocks w) = Ret (w_fmts w) /\
  (w_timer w = false -> show_data e (w_pad w) (w_dec w) (plain_text (w_blocks w)) = Ret (w_items w)).
Proof.
  intros e evs w E. apply run_consistent in E; [|apply win0_consistent]. split; [apply (consistent_shows e), E|]. destruct E as (_ & _ & _ & _ & _ & _ & text & S & T). intros X. rewrite <- (T X). exact S.
Qed.
Print Assumptions C159_display.
(** What the user entered and checked last is what is there. *)
Definition last_set {A} (f : wevent -> option A) (d : A) (evs : list wevent) : A :=
  fold_left (fun a ev => match f ev with Some x => x | None => a end) evs d.
Lemma on_text_fields w w' : on_text_changed w = Ret w' -> w_blocks w' = w_blocks w /\ w_tags w' = w_tags w /\ w_pad w' = w_pad w /\ w_dec w' = w_dec w.
Proof. destruct w. intros E. apply text_changed in E as (p & f & _ & _ & ->). fields. auto. Qed.
Lemma step_fields e w ev w' : step e w ev = Ret w' ->
  w_blocks w' = match ev with SetText b => b | _ => w_blocks w end /\ w_tags w' = match ev with SetTags b => b | _ => w_tags w end /\
  w_pad w' = match ev with SetPadding b => b | _ => w_pad w end /\ w_dec w' = match ev with SetDecode b => b | _ => w_dec w end.
Proof.
  destruct w as [bl tg pd dc hi he sl pa fm ti td it tm]. intros E. destruct ev as [blocks| |b|b|b|path]; cbn [step] in E; fields.
  - apply on_text_fields in E. exact E.
  - destruct tm; [|injection E as <-; auto]. unfold parse_data in E. apply bind_Ret_inv in E as (l & El & E). injection E as <-. auto.
  - destruct (Bool.eqb b tg) eqn:Eb; [injection E as <-; apply Bool.eqb_prop in Eb; subst; auto|]. apply bind_Ret_inv in E as (l & El & E). injection E as <-. auto.
  - destruct (Bool.eqb b pd) eqn:Eb; [injection E as <-; apply Bool.eqb_prop in Eb; subst; auto|]. apply bind_Ret_inv in E as (l & El & E). apply bind_Ret_inv in E as (w1 & E1 & E). apply on_text_fields in E1. unfold parse_data in E. apply bind_Ret_inv in E as (l1 & El1 & E). injection E as <-. exact E1.
  - destruct (Bool.eqb b dc) eqn:Eb; [injection E as <-; apply Bool.eqb_prop in Eb; subst; auto|]. injection E as <-. auto.
  - destruct (item_at it path) as [i|]; [|injection E as <-; auto]. destruct (a_src (i_attr i)); [|injection E as <-; auto]. apply bind_Ret_inv in E as (f & Ef & E). injection E as <-. auto.
Qed.
Lemma run_fields e : forall evs w w', run e w evs = Ret w' ->
  w_blocks w' = last_set (fun ev => match ev with SetText b => Some b | _ => None end) (w_blocks w) evs /\
  w_tags w' = last_set (fun ev => match ev with SetTags b => Some b | _ => None end) (w_tags w) evs /\
  w_pad w' = last_set (fun ev => match ev with SetPadding b => Some b | _ => None end) (w_pad w) evs /\
  w_dec w' = last_set (fun ev => match ev with SetDecode b => Some b | _ => None end) (w_dec w) evs.
Proof.
  unfold last_set. induction evs as [|ev evs IH]; intros w w' E; cbn [run] in E; [injection E as <-; auto|]. apply bind_Ret_inv in E as (w1 & E1 & E). destruct (step_fields _ _ _ _ E1) as (X1 & X2 & X3 & X4). destruct (IH _ _ E) as (Y1 & Y2 & Y3 & Y4).
  cbn [fold_left]. rewrite Y1, Y2, Y3, Y4, X1, X2, X3, X4. destruct ev; auto.
Qed.
Theorem C159_follows : forall e evs w, run e win0 (evs ++ [Timeout]) = Ret w ->
  let text := last_set (fun ev => match ev with SetText b => Some b | _ => None end) [[]] evs in
  let tags := last_set (fun ev => match ev with SetTags b => Some b | _ => None end) false evs in
  let pad := last_set (fun ev => match ev with SetPadding b => Some b | _ => None end) false evs in
  let dec := last_set (fun ev => match ev with SetDecode b => Some b | _ => None end) false evs in
  exists sel, highlight pad tags sel text = Ret (w_fmts w) /\ show_data e pad dec (plain_text text) = Ret (w_items w).
Proof.
  intros e evs w E. assert (R : exists w1, run e win0 evs = Ret w1 /\ step e w1 Timeout = Ret w).
  { clear - E. revert E. generalize win0 as w0. induction evs as [|ev evs IH]; intros w0 E; cbn [app run] in E.
    - apply bind_Ret_inv in E as (w1 & E1 & E). injection E as <-. exists w0. auto.
    - apply bind_Ret_inv in E as (w1 & E1 & E). apply IH in E as (w2 & E2 & E). exists w2. cbn [run]. rewrite E1. auto. }
  destruct R as (w1 & R1 & R2). destruct (run_fields _ _ _ _ R1) as (F1 & F2 & F3 & F4). destruct (step_fields _ _ _ _ R2) as (G1 & G2 & G3 & G4). destruct (C159_display _ _ _ E) as (H & T).
  assert (Tm : w_timer w = false).
  { cbn [step] in R2. destruct (w_timer w1) eqn:Et; [|injection R2 as <-; exact Et]. unfold parse_data in R2. apply bind_Ret_inv in R2 as (l & _ & R2). injection R2 as <-. reflexivity. }
  specialize (T Tm). exists (h_sel w). rewrite G1, G2, G3, F1, F2, F3 in H. rewrite G1, G3, G4, F1, F3, F4 in T. split; assumption.
Qed.
Print Assumptions C159_follows.

(** Nothing the user does makes the window fail, except data that cannot be shown. *)
Definition good_text (blocks : list (list Z)) : Prop := Forall (Forall latin) blocks /\ small (plain_text blocks).
Definition unshowable (blocks : list (list Z)) : Prop := exists data rest, reads (stripped (List.concat blocks)) data rest /\ has_unprintable data.
Lemma rehighlight_runs e bl tg pd dc pd' he sl pa fm ti td it tm : arrays e -> good_text bl -> match pa with Some p => parse_blocks pd' bl = Ret p | None => True end ->
  exists f, rehighlight (mkWin bl tg pd dc pd' he sl pa fm ti td it tm) = Ret f.
Proof.
  intros A (L & S) P. unfold rehighlight. fields. destruct pa as [p|]; [|eauto]. destruct (C150_text_partial e pd' false he sl bl A L S) as ((f & Ef) & _). unfold highlight in Ef. rewrite P in Ef. cbn [bind] in Ef. eauto.
Qed.
Lemma text_runs e bl tg pd dc hi he sl pa fm ti td it tm : arrays e -> good_text bl -> exists p f, on_text_changed (mkWin bl tg pd dc hi he sl pa fm ti td it tm) = Ret (mkWin bl tg pd dc hi he sl (Some p) f ti td it true).
Proof.
  intros A (L & S). destruct (C150_text_partial e hi false he sl bl A L S) as ((f & Ef) & _). unfold highlight in Ef. apply bind_Ret_inv in Ef as (p & Ep & Ef). exists p, f. unfold on_text_changed. fields. rewrite Ep. cbn [bind]. unfold rehighlight. fields. rewrite Ef. reflexivity.
Qed.
Lemma step_runs e w ev : arrays e -> consistent e w -> good_text (w_blocks w) -> (forall b, ev = SetText b -> good_text b) ->
  (exists w', step e w ev = Ret w') \/ (step e w ev = UB /\ unshowable (w_blocks w)).
Proof.
  destruct w as [bl tg pd dc hi he sl pa fm ti td it tm]. intros Ar (A & B & C & D & P & H & text & S & T) G N. fields. subst he hi ti td.
  assert (SD : forall dec ign, (exists l, show_data e ign dec (plain_text bl) = Ret l) \/ (show_data e ign dec (plain_text bl) = UB /\ unshowable bl)) by (intros; destruct G as (L & Sm); exact (proj2 (C150_text_partial e ign dec false (0, 0) bl Ar L Sm))).
  assert (P1 : match pa with Some p => parse_blocks pd bl = Ret p | None => True end) by (destruct pa; auto).
  destruct ev as [blocks| |b|b|b|path]; cbn [step]; fields.
  - left. destruct (text_runs e blocks tg pd dc pd tg sl pa fm pd dc it tm Ar (N _ eq_refl)) as (p & f & ->). eauto.
  - destruct tm; [|eauto]. unfold parse_data. fields. destruct (SD dc pd) as [(l & ->)|(-> & U)]; cbn [bind]; [eauto|right; auto].
  - left. destruct (Bool.eqb b tg); [eauto|]. destruct (rehighlight_runs e bl b pd dc pd b sl pa fm pd dc it tm Ar G P1) as (f & ->). cbn [bind]. eauto.
  - destruct (Bool.eqb b pd); [eauto|]. destruct (rehighlight_runs e bl tg b dc pd tg sl pa fm pd dc it tm Ar G P1) as (f & Ef). unfold rehighlight in *. fields. rewrite Ef. cbn [bind]. unfold with_fmts. fields.
    destruct (text_runs e bl tg b dc b tg sl pa f pd dc it tm Ar G) as (p & f1 & ->). cbn [bind]. fields. unfold parse_data. fields. destruct (SD dc b) as [(l & ->)|(-> & U)]; cbn [bind]; [eauto|right; auto].
  - left. destruct (Bool.eqb b dc); eauto.
  - left. destruct (item_at it path) as [i|]; [|eauto]. destruct (a_src (i_attr i)); [|eauto]. destruct (rehighlight_runs e bl tg pd dc pd tg (press i sl) pa fm pd dc it tm Ar G P1) as (f & ->). cbn [bind]. eauto.
Qed.
Theorem C159_runs_partial : forall e evs, arrays e -> (forall b, In (SetText b) evs -> good_text b) ->
  (exists w, run e win0 evs = Ret w) \/ (run e win0 evs = UB /\ exists b, In (SetText b) evs /\ unshowable b).
Proof.
  intros e evs A G. assert (Q : forall evs0 w, consistent e w -> good_text (w_blocks w) -> (forall b, In (SetText b) evs0 -> good_text b) ->
    (exists w', run e w evs0 = Ret w') \/ (run e w evs0 = UB /\ exists b, (b = w_blocks w \/ In (SetText b) evs0) /\ unshowable b)).
  { clear evs G. intros evs. induction evs as [|ev evs IH]; intros w C Gw G; cbn [run]; [eauto|]. destruct (step_runs e w ev A C Gw) as [(w' & E)|(E & U)]; [intros b ->; apply G; left; reflexivity| |].
    - rewrite E. cbn [bind]. pose proof (step_fields _ _ _ _ E) as (Fb & _). destruct (IH w') as [(w2 & E2)|(E2 & b & Hb & U)].
      + eapply step_consistent; eassumption.
      + rewrite Fb. destruct ev; try exact Gw. apply G. left. reflexivity.
      + intros b Hb. apply G. right. exact Hb.
      + left. eauto.
      + right. split; [exact E2|]. exists b. split; [|exact U]. destruct Hb as [Hb|Hb]; [|right; right; exact Hb]. rewrite Fb in Hb. destruct ev; auto. right. left. now subst.
    - right. rewrite E. split; [reflexivity|]. exists (w_blocks w). auto. }
  destruct (Q evs win0 (win0_consistent e)) as [R|(R & b & Hb & U)]; [split; [repeat constructor|reflexivity]|exact G|left; exact R|].
  right. split; [exact R|]. exists b. split; [|exact U]. destruct Hb as [->|Hb]; [|exact Hb]. exfalso. destruct U as (data & rest & Rd & U). change (stripped (List.concat [[]])) with (@nil Z) in Rd.
  destruct Rd as (ds & E & O & _). destruct ds; [|discriminate E]. inversion O; subst. destruct U as (pre & enc & post & tag & fl & v & E2 & En & _). apply encodes_length in En. destruct pre, enc; try discriminate E2. cbn in En. lia.
Qed.
Print Assumptions C159_runs_partial.
Theorem C159_runs_refuted : exists b, good_text b /\ run ex_env win0 [SetText b; Timeout] = UB /\ exists w, run ex_env win0 [SetText b] = Ret w.
Proof.
  exists [lit "8C02840E"]. split; [split; [repeat constructor; unfold latin; lia|reflexivity]|]. split; [vm_compute; reflexivity|]. eexists. vm_compute. reflexivity.
Qed.
Print Assumptions C159_runs_refuted.
Definition shown (w : win) := (w_fmts w, map (fun i => (a_text (i_attr i), map (fun j => (a_text (i_attr j), a_hidden (i_attr j))) (i_kids i))) (w_items w), w_timer w).
Example C159_ex :
  (let* w := run ex_env win0 [SetTags true; SetText [lit "500141FFFFFFFFFF"]; Timeout; SetDecode true] in Ret (shown w)) =
    Ret ([[tag_fmt; tag_fmt; plain_fmt; plain_fmt; plain_fmt; plain_fmt] ++ repeat invalid_fmt 10],
         [(lit "50 | Application Label : " ++ [34; 65; 34], [(lit "[1] 41", false)]); (lit "Remaining invalid data: FFFFFFFFFF", [])], false) /\
  (let* w := run ex_env win0 [SetTags true; SetText [lit "500141FFFFFFFFFF"]; Timeout; SetDecode true; SetPadding true; SetDecode false] in Ret (shown w)) =
    Ret ([[tag_fmt; tag_fmt; plain_fmt; plain_fmt; plain_fmt; plain_fmt] ++ repeat padding_fmt 10], [(lit "50 : [1] 41", [(lit "[1] 41", true)]); (lit "Padding : [5] FF FF FF FF FF", [])], true).
Proof. split; vm_compute; reflexivity. Qed.

(** ** C160: the highlighted octets *)
Lemma item_at_in : forall path l i, item_at l path = Some i -> in_tree i l.
Proof.
  induction path as [|k path IH]; intros l i E; [discriminate E|]. cbn [item_at] in E. destruct (nth_error l k) as [j|] eqn:Ej; [|discriminate E]. apply nth_error_In in Ej. destruct path as [|k2 path].
  - injection E as <-. apply it_here, Ej.
  - destruct j as [a kids]. eapply it_below; [exact Ej|]. apply IH, E.
Qed.
Lemma in_tree_app i l a t : a_src a = None -> a_src (i_attr i) <> None -> in_tree i (l ++ [Item a (map (fun x => x) (@nil item))]) -> t = l -> in_tree i t.
Proof.
  intros Na Ni T ->. inversion T as [l' I El|a' kids l' I T' El]; subst.
  - apply in_app_or in I as [I|[<-|[]]]; [apply it_here, I|]. cbn [i_attr] in Ni. contradiction.
  - apply in_app_or in I as [I|[I|[]]]; [eapply it_below; eassumption|]. injection I as <- <-. cbn [map] in T'. inversion T' as [? I2|? ? ? I2]; destruct I2.
Qed.
Definition quiet (ev : wevent) : Prop := match ev with Timeout | SetTags _ | SetDecode _ => True | _ => False end.
Lemma run_quiet e : forall evs w w', Forall quiet evs -> run e w evs = Ret w' -> h_sel w' = h_sel w /\ w_blocks w' = w_blocks w /\ w_pad w' = w_pad w.
Proof.
  induction evs as [|ev evs IH]; intros w w' Q E; cbn [run] in E; [injection E as <-; auto|]. apply bind_Ret_inv in E as (w1 & E1 & E). inversion Q as [|? ? Q1 Q2]; subst. destruct (IH _ _ Q2 E) as (-> & -> & ->). destruct (step_fields _ _ _ _ E1) as (-> & _ & -> & _).
  assert (X : h_sel w1 = h_sel w); [|destruct ev; try destruct Q1; auto]. destruct ev; try destruct Q1; cbn [step] in E1.
  - destruct (w_timer w); [|injection E1 as <-; reflexivity]. unfold parse_data in E1. apply bind_Ret_inv in E1 as (l & _ & E1). injection E1 as <-. reflexivity.
  - destruct (Bool.eqb _ _); [injection E1 as <-; reflexivity|]. apply bind_Ret_inv in E1 as (l & _ & E1). injection E1 as <-. reflexivity.
  - destruct (Bool.eqb _ _); injection E1 as <-; reflexivity.
Qed.
Lemma run_app e : forall evs evs2 w, run e w (evs ++ evs2) = (let* w := run e w evs in run e w evs2).
Proof. induction evs as [|ev evs IH]; intros evs2 w; cbn [app run bind]; [reflexivity|]. destruct (step e w ev); cbn [bind]; [apply IH|reflexivity|reflexivity]. Qed.
(** An item is pressed when the tree is up to date: until the text, the padding option or the selection changes, exactly the
    digits of its octets are highlighted. *)
Theorem C160_selected_partial : forall e evs w1 path i off n evs2 w data rest ps valid ok, arrays e ->
  run e win0 evs = Ret w1 -> w_timer w1 = false -> item_at (w_items w1) path = Some i -> a_src (i_attr i) = Some (off, n) ->
  good_text (w_blocks w1) -> reads (stripped (List.concat (w_blocks w1))) data rest -> small data -> data_layout (w_pad w1) data ps valid ok ->
  Forall quiet evs2 -> run e w1 (Press path :: evs2) = Ret w ->
  exists pre enc post, data = pre ++ enc ++ post /\ Zlen pre = off /\ Zlen enc = n /\ stands_for enc /\
    forall before text after a c b, w_blocks w = before ++ text :: after -> text = a ++ c :: b ->
      f_bg (nth (length a) (nth (length before) (w_fmts w) []) plain_fmt) = Some Base00 <->
      hex_char c /\ 2 * Zlen pre <= Zlen (stripped (List.concat before ++ a)) < 2 * Zlen (pre ++ enc).
Proof.
  intros e evs w1 path i off n evs2 w data rest ps valid ok A R1 Tm Ip Es (Gl & Gs) Rd Sm La Q R2.
  destruct (C159_display e evs w1 R1) as (_ & Sh). specialize (Sh Tm).
  assert (Rall : run e win0 (evs ++ Press path :: evs2) = Ret w) by (rewrite run_app, R1; exact R2).
  destruct (C159_display e _ w Rall) as (Hh & _). cbn [run] in R2. apply bind_Ret_inv in R2 as (w2 & E2 & R2).
  destruct (run_quiet _ _ _ _ Q R2) as (Hs & Hb & Hp). destruct (step_fields _ _ _ _ E2) as (Fb & _ & Fp & _). rewrite Fb in Hb. rewrite Fp in Hp.
  assert (Hs2 : h_sel w2 = press i (h_sel w1)). { cbn [step] in E2. rewrite Ip, Es in E2. apply bind_Ret_inv in E2 as (f & _ & E2). injection E2 as <-. reflexivity. }
  assert (Hl : forall ds c r, stripped (plain_text (w_blocks w1)) = ds ++ c :: r -> Forall hex_char ds -> c < 256).
  { intros ds c r E _. rewrite stripped_plain in E by exact Gl. assert (Fs : Forall latin (stripped (List.concat (w_blocks w1)))) by (apply stripped_Forall, Forall_concat, Gl). rewrite E in Fs. apply Forall_app in Fs as [_ Fs]. inversion Fs; subst. unfold latin in *. lia. }
  destruct (C154_remaining e (w_pad w1) (w_dec w1) (plain_text (w_blocks w1)) A Gs Hl) as (data' & rest' & Rd' & [(U & _)|(l & v & pre & post & Po & _ & _ & _ & P1 & P2)]); [congruence|].
  rewrite stripped_plain in Rd' by exact Gl. assert (data' = data).
  { rewrite stripped_plain in Hl by exact Gl. destruct (reads_prefix _ _ _ Rd Hl) as (k1 & K1 & K2 & _). destruct (reads_prefix _ _ _ Rd' Hl) as (k2 & K3 & K4 & _). rewrite K1 in K3. injection K3 as <-. congruence. }
  subst data'.
  assert (T : in_tree i l).
  { apply item_at_in in Ip. destruct post as [|c post]; [rewrite (P1 eq_refl) in Sh; injection Sh as ->; exact Ip|]. rewrite P2 in Sh by discriminate. injection Sh as Sh. rewrite <- Sh in Ip. eapply in_tree_app; [|rewrite Es; discriminate|exact Ip|reflexivity]. reflexivity. }
  destruct (C153_selection e (w_pad w1) (w_dec w1) (w_tags w) (w_blocks w1) data rest ps valid ok l v i off n (h_sel w1) A Gl Rd Sm La Po T Es) as (pr & enc & po & fss & Ed & Ep & En & St & Hf & Hc).
  rewrite Hp, Hb, Hs, Hs2, Hf in Hh. injection Hh as <-. exists pr, enc, po. split; [exact Ed|]. split; [exact Ep|]. split; [exact En|]. split; [exact St|]. rewrite Hb. intros. eapply Hc; eassumption.
Qed.
Print Assumptions C160_selected_partial.
(** C160 is false: after an edit the old positions stay highlighted, here all of one field and half of the next; an item of
    the old text, pressed before the tree follows, is highlighted in the new text; and pressing an item that is no field
    leaves the one pressed before highlighted. *)
Theorem C160_edit_refuted : exists evs w, run ex_env win0 evs = Ret w /\ w_timer w = false /\ w_blocks w = [lit "C100C200"] /\
  map f_bg (nth 0 (w_fmts w) []) = repeat (Some Base00) 6 ++ [None; None] /\ map (fun i => a_src (i_attr i)) (w_items w) = [Some (0, 2); Some (2, 2)].
Proof. exists [SetText [lit "500141"]; Timeout; Press [0%nat]; SetText [lit "C100C200"]; Timeout]. eexists. split; [vm_compute; reflexivity|]. repeat split; reflexivity. Qed.
Print Assumptions C160_edit_refuted.
Theorem C160_soon_refuted : exists text text2 w, run ex_env win0 [SetText text; Timeout; SetText text2; Press [0%nat]] = Ret w /\
  map f_bg (nth 0 (w_fmts w) []) = repeat (Some Base00) 6 ++ [None; None].
Proof. exists [lit "500141"], [lit "C100C200"]. eexists. split; [vm_compute; reflexivity|]. reflexivity. Qed.
Print Assumptions C160_soon_refuted.
Theorem C160_other_refuted : exists text w w', run ex_env win0 [SetText text; Timeout; Press [0%nat]] = Ret w /\ step ex_env w (Press [1%nat]) = Ret w' /\
  (exists i, item_at (w_items w) [1%nat] = Some i /\ a_text (i_attr i) = lit "Remaining invalid data: C1") /\ map f_bg (nth 0 (w_fmts w') []) = repeat (Some Base00) 6 ++ [None; None].
Proof. exists [lit "500141C1"]. eexists _, _. split; [vm_compute; reflexivity|]. split; [vm_compute; reflexivity|]. split; [eexists; split; reflexivity|reflexivity]. Qed.
Print Assumptions C160_other_refuted.
(** Nothing is highlighted before an item is pressed. *)
Lemma run_unpressed e : forall evs w w', (forall p, ~ In (Press p) evs) -> run e w evs = Ret w' -> h_sel w' = h_sel w.
Proof.
  induction evs as [|ev evs IH]; intros w w' N E; cbn [run] in E; [injection E as <-; reflexivity|]. apply bind_Ret_inv in E as (w1 & E1 & E). rewrite (IH w1 w'); [|intros p I; apply (N p); right; exact I|exact E]. clear IH E.
  destruct w as [bl tg pd dc hi he sl pa fm ti td it tm]. destruct ev as [blocks| |b|b|b|path]; cbn [step] in E1; fields.
  - apply text_changed in E1 as (p & f & _ & _ & ->). reflexivity.
  - destruct tm; [|injection E1 as <-; reflexivity]. unfold parse_data in E1. apply bind_Ret_inv in E1 as (l & _ & E1). injection E1 as <-. reflexivity.
  - destruct (Bool.eqb _ _); [injection E1 as <-; reflexivity|]. apply bind_Ret_inv in E1 as (l & _ & E1). injection E1 as <-. reflexivity.
  - destruct (Bool.eqb _ _); [injection E1 as <-; reflexivity|]. apply bind_Ret_inv in E1 as (l & _ & E1). unfold with_fmts in E1. fields. apply bind_Ret_inv in E1 as (w2 & E2 & E1). apply text_changed in E2 as (p & f & _ & _ & ->). unfold parse_data in E1. apply bind_Ret_inv in E1 as (l2 & _ & E1). injection E1 as <-. reflexivity.
  - destruct (Bool.eqb _ _); injection E1 as <-; reflexivity.
  - exfalso. apply (N path). left. reflexivity.
Qed.
Lemma paint_keeps (P : fmt -> Prop) d o : (forall k f, P f -> P (d k f)) -> (forall f, P f -> P (o f)) -> forall text idx fs r, Forall P fs -> paint d o idx text fs = Ret r -> Forall P r.
Proof.
  intros Hd Ho. induction text as [|c text IH]; intros idx fs r F E; cbn [paint] in E; [injection E as <-; exact F|]. destruct fs as [|f fs]; [injection E as <-; exact F|]. inversion F as [|? ? F1 F2]; subst.
  apply bind_Ret_inv in E as (x & _ & E). apply bind_Ret_inv in E as (r2 & E2 & E). injection E as <-. constructor; [destruct x; auto|]. eapply IH; eassumption.
Qed.
Lemma paint_all_keeps (P : fmt -> Prop) f : P f -> forall ps start text fs r, Forall P fs -> paint_all f ps start text fs = Ret r -> Forall P r.
Proof.
  intros Pf. induction ps as [|p ps IH]; intros start text fs r F E; cbn [paint_all] in E; [injection E as <-; exact F|]. apply bind_Ret_inv in E as (fs1 & E1 & E). eapply IH; [|exact E]. eapply paint_keeps; [| |exact F|exact E1]; cbn; auto. intros k g Hg. destruct (within p k); assumption.
Qed.
Theorem C160_unpressed : forall e evs w, run e win0 evs = Ret w -> (forall p, ~ In (Press p) evs) -> Forall (Forall (fun f => f_bg f <> Some Base00)) (w_fmts w).
Proof.
  intros e evs w R N. destruct (C159_display e evs w R) as (H & _). rewrite (run_unpressed e evs win0 w N R) in H. cbn [h_sel win0] in H. unfold highlight in H. apply bind_Ret_inv in H as (p & _ & H). revert H. generalize (p_blocks p) as bs. generalize (w_blocks w) as blocks. generalize (w_fmts w) as fss. clear R N.
  intros fss blocks. revert fss. induction blocks as [|text blocks IH]; intros fss bs H; destruct bs as [|b bs]; cbn [highlight_blocks] in H; try (injection H as <-; constructor).
  apply bind_Ret_inv in H as (f & Hf & H). apply bind_Ret_inv in H as (fs & Hfs & H). injection H as <-. constructor; [|eapply IH; exact Hfs]. unfold highlight_block in Hf. cbn [fst snd] in Hf. apply bind_Ret_inv in Hf as (f1 & E1 & Hf). apply bind_Ret_inv in Hf as (f2 & E2 & Hf).
  change ((-1 <=? -1) && (0 <? 0))%bool with false in Hf. cbv iota in Hf. injection Hf as <-.
  set (P := fun f => f_bg f <> Some Base00) in *. assert (F0 : Forall P (repeat plain_fmt (length text))) by (apply Forall_forall; intros x Hx; apply repeat_spec in Hx; subst; discriminate).
  assert (F1 : Forall P f1). { destruct (_ <=? _); [injection E1 as <-; exact F0|]. destruct (_ <=? _); (eapply paint_keeps; [| |exact F0|exact E1]; cbn beta; [intros k g _; try destruct (_ <? _); discriminate|intros; discriminate]). }
  destruct (w_tags w); [|injection E2 as <-; exact F1]. apply bind_Ret_inv in E2 as (f3 & E3 & E2). eapply paint_all_keeps; [|eapply paint_all_keeps; [|exact F1|exact E3]|exact E2]; discriminate.
Qed.
Print Assumptions C160_unpressed.
Example C160_ex : (let* w := run ex_env win0 [SetText [lit "7003"; lit "50 0141"]; Timeout; Press [0; 0]%nat; SetTags true] in Ret (map (map f_bg) (w_fmts w))) =
  Ret [[None; None; None; None]; [Some Base00; Some Base00; None; Some Base00; Some Base00; Some Base00; Some Base00]].
Proof. vm_compute. reflexivity. Qed.

(** ** C161: the options are kept *)
Theorem C161_kept : forall e evs w ber tlv w2, run e win0 evs = Ret w -> start e (save_settings w) ber tlv = Ret w2 ->
  w_tags w2 = w_tags w /\ w_pad w2 = w_pad w /\
  (ber = None -> tlv = None -> w_dec w2 = w_dec w /\ w_blocks w2 = [[]]) /\
  (forall t, tlv = None -> ber = Some t -> w_dec w2 = false /\ w_blocks w2 = t) /\
  (forall t, tlv = Some t -> w_dec w2 = true /\ w_blocks w2 = t).
Proof.
  intros e evs w ber tlv w2 _ S. unfold start in S. apply run_fields in S as (-> & -> & -> & ->). unfold save_settings, boxes, flat_map. cbn [fst snd app].
  destruct (w_tags w), (w_pad w), (w_dec w), tlv, ber; vm_compute; (split; [reflexivity|]); (split; [reflexivity|]); (split; [intros X Y; first [discriminate X|discriminate Y|split; reflexivity]|]); (split; [intros t X Y; first [discriminate X|discriminate Y|injection Y as <-; split; reflexivity]|]); intros t X; first [discriminate X|injection X as <-; split; reflexivity].
Qed.
Print Assumptions C161_kept.
Theorem C161_starts : forall e s, exists w, start e s None None = Ret w /\ w_items w = [] /\ w_fmts w = [[]].
Proof.
  intros e s. unfold start, load_settings, boxes, flat_map. cbn [fst snd app override_events].
  destruct (lookup (lit "tagsCheckBox") s) as [a|], (lookup (lit "paddingCheckBox") s) as [b|], (lookup (lit "decodeCheckBox") s) as [c|]; cbn [app];
    try destruct (negb (a =? 0)); try destruct (negb (b =? 0)); try destruct (negb (c =? 0)); eexists; (split; [vm_compute; reflexivity|split; reflexivity]).
Qed.
Print Assumptions C161_starts.
Example C161_ex : (let* w := run ex_env win0 [SetTags true; SetPadding true; SetTags false; SetDecode true] in let* w := start ex_env (save_settings w) (Some [lit "500141"]) None in let* w := step ex_env w Timeout in
    Ret (save_settings w, map (fun i => a_text (i_attr i)) (w_items w))) = Ret ([(lit "paddingCheckBox", 2)], [lit "50 : [1] 41"]).
Proof. vm_compute. reflexivity. Qed.
