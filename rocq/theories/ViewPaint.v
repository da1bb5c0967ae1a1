(** Text and its highlighting. *)
From Coq Require Import String.
From Verif Require Import Base BaseLemmas BerModel BerSpec TlvSpec StrSpec ToolsModel ToolsSpec ToolsProofs PrintSpec ViewModel ViewSpec ViewWalk.
Open Scope Z_scope.
Open Scope list_scope.
Notation length := List.length.

(** ** Characters *)
Lemma xdigit_latin c : latin c -> xdigit_of c = Ret (is_xdigit c).
Proof. intros H. unfold xdigit_of. destruct (Z.ltb_spec c 256); [reflexivity|unfold latin in H; lia]. Qed.
Lemma hex_char_ok c : is_xdigit c = true <-> hex_char c.
Proof. apply is_xdigit_ok. Qed.
Lemma hex_latin c : is_xdigit c = true -> latin c /\ q_space c = false.
Proof.
  intros H. assert (48 <= c < 103). { unfold is_xdigit in H. lia. } split; [unfold latin; lia|].
  unfold q_space. clear H. lia.
Qed.
Lemma stripped_app a b : stripped (a ++ b) = stripped a ++ stripped b.
Proof. apply filter_app. Qed.
Lemma stripped_concat bs : List.concat (map stripped bs) = stripped (List.concat bs).
Proof. induction bs as [|b bs IH]; [reflexivity|]. cbn [map List.concat]. now rewrite stripped_app, IH. Qed.
Lemma stripped_Forall (P : Z -> Prop) s : Forall P s -> Forall P (stripped s).
Proof. intros H. apply Forall_forall. intros x Hx. apply filter_In in Hx as [Hx _]. rewrite Forall_forall in H. auto. Qed.

(** ** Reading hex digits *)
Inductive split_hex : list Z -> list Z -> list Z -> Prop :=
| sh_intro ds r : Forall (fun c => is_xdigit c = true) ds -> (forall c r', r = c :: r' -> is_xdigit c = false) -> split_hex (ds ++ r) ds r.
Lemma split_hex_ex s : exists ds r, split_hex s ds r.
Proof.
  induction s as [|c s (ds & r & H)]; [exists [], []; apply (sh_intro [] []); [constructor|discriminate]|].
  destruct (is_xdigit c) eqn:E.
  - exists (c :: ds), r. destruct H as [ds r F N]. apply (sh_intro (c :: ds) r); [constructor; assumption|exact N].
  - exists [], (c :: s). apply (sh_intro [] (c :: s)); [constructor|]. intros c' r' X. now injection X as <- _.
Qed.
Lemma hex_prefix_run s ds r : split_hex s ds r -> (forall c r', r = c :: r' -> c < 256) -> hex_prefix s = Ret (Zlen ds).
Proof.
  intros [ds' r' F N] L. induction F as [|c ds0 Hc F IH]; cbn [app].
  - destruct r' as [|c r']; [reflexivity|]. cbn [hex_prefix]. unfold xdigit_of. specialize (N c r' eq_refl). specialize (L c r' eq_refl). destruct (Z.ltb_spec c 256); [|lia]. cbn [bind]. now rewrite N.
  - cbn [hex_prefix]. rewrite (xdigit_latin c) by apply hex_latin, Hc. cbn [bind]. rewrite Hc, IH. cbn [bind]. f_equal. unfold Zlen. cbn [length]. lia.
Qed.
Lemma hex_prefix_UB ds c r : Forall (fun c => is_xdigit c = true) ds -> 256 <= c -> hex_prefix (ds ++ c :: r) = UB.
Proof.
  intros F L. induction F as [|c0 ds0 Hc F IH]; cbn [app hex_prefix].
  - unfold xdigit_of. destruct (Z.ltb_spec c 256); [lia|reflexivity].
  - rewrite (xdigit_latin c0) by apply hex_latin, Hc. cbn [bind]. now rewrite Hc, IH.
Qed.
Lemma even_down_ok n : 0 <= n -> 0 <= even_down n <= n /\ Z.even (even_down n) = true /\ n <= even_down n + 1.
Proof.
  intros H. unfold even_down. destruct (Z.odd n) eqn:E.
  - split; [destruct (Z.eq_dec n 0) as [-> |]; [discriminate|lia]|]. split; [|lia]. rewrite Z.even_sub, <- Z.negb_odd, E. reflexivity.
  - split; [lia|]. split; [|lia]. now rewrite <- Z.negb_odd, E.
Qed.
Lemma from_hex_octets : forall n ds, (length ds < n)%nat -> Forall (fun c => is_xdigit c = true) ds -> Nat.even (length ds) = true -> octets_of ds (from_hex ds).
Proof.
  induction n as [|n IH]; intros ds L F E; [lia|]. destruct ds as [|a [|b ds]]; [constructor|discriminate E|]. inversion F as [|x1 x2 Ha F1]; subst. inversion F1 as [|x1 x2 Hb F2]; subst. cbn [from_hex].
  apply is_xdigit_ok in Ha as (va & Da). apply is_xdigit_ok in Hb as (vb & Db). rewrite (xvalue_ok a va Da), (xvalue_ok b vb Db). constructor; [exact Da|exact Db|]. apply IH; [cbn [length] in L; lia|exact F2|exact E].
Qed.
Lemma octets_of_ok ds bs : octets_of ds bs -> Zlen ds = 2 * Zlen bs /\ bytes bs /\ Forall (fun c => is_xdigit c = true) ds /\ from_hex ds = bs.
Proof.
  induction 1 as [|a va b vb ds bs Da Db H (L & B & F & E)]; [repeat split; constructor|].
  split; [unfold Zlen in *; cbn [length]; lia|]. split; [constructor; [|exact B]; pose proof (xdigit_range a va Da); pose proof (xdigit_range b vb Db); unfold is_byte; lia|].
  split; [constructor; [apply is_xdigit_ok; eauto|constructor; [apply is_xdigit_ok; eauto|assumption]]|].
  cbn [from_hex]. now rewrite (xvalue_ok a va Da), (xvalue_ok b vb Db), E.
Qed.
Lemma reads_ex str : (forall ds c r, str = ds ++ c :: r -> Forall hex_char ds -> c < 256) ->
  exists n, hex_prefix str = Ret n /\ reads str (from_hex (firstn (Z.to_nat (even_down n)) str)) (skipn (Z.to_nat (even_down n)) str) /\ Zlen (from_hex (firstn (Z.to_nat (even_down n)) str)) * 2 = even_down n /\ even_down n <= Zlen str.
Proof.
  intros L. destruct (split_hex_ex str) as (ds & r & H). assert (H' := H). destruct H' as [ds r F N].
  exists (Zlen ds). split; [eapply hex_prefix_run; [exact H|]; intros c r' ->; apply (L ds c r' eq_refl); eapply Forall_impl; [|exact F]; intros x Hx; apply hex_char_ok, Hx|].
  pose proof (even_down_ok (Zlen ds) (Zlen_nonneg _)) as (R & E & M). set (k := even_down (Zlen ds)) in *. assert (Kl : (Z.to_nat k <= length ds)%nat) by (unfold Zlen in R; lia).
  set (d1 := firstn (Z.to_nat k) ds). assert (D1 : firstn (Z.to_nat k) (ds ++ r) = d1). { subst d1. rewrite firstn_app. replace (Z.to_nat k - length ds)%nat with 0%nat by lia. now rewrite firstn_O, app_nil_r. }
  rewrite D1. assert (L1 : length d1 = Z.to_nat k) by (apply firstn_length_le; exact Kl).
  assert (O : octets_of d1 (from_hex d1)). { apply (from_hex_octets (Datatypes.S (length d1))); [lia| |rewrite L1; destruct k; [reflexivity| |lia]]. { rewrite <- (firstn_skipn (Z.to_nat k) ds) in F. apply Forall_app in F. apply F. }
    cbn [Z.to_nat]. apply Z.even_spec in E as (q & E). apply Nat.even_spec. exists (Z.to_nat q). lia. }
  pose proof (octets_of_ok _ _ O) as (OL & _). split; [|split; [unfold Zlen in OL at 1; lia|rewrite Zlen_app3; pose proof (Zlen_nonneg r); lia]].
  exists d1. split; [rewrite <- D1; symmetry; apply firstn_skipn|]. split; [exact O|].
  intros a b r' Hr [Ha Hb]. apply hex_char_ok in Ha. apply hex_char_ok in Hb. rewrite skipn_app in Hr. replace (Z.to_nat k - length ds)%nat with 0%nat in Hr by lia. rewrite skipn_O in Hr.
  assert (Ls : (length (skipn (Z.to_nat k) ds) <= 1)%nat) by (rewrite skipn_length; unfold Zlen in M; lia).
  destruct (skipn (Z.to_nat k) ds) as [|x [|y l]]; [|cbn in Hr|cbn [length] in Ls; lia].
  - cbn [app] in Hr. specialize (N a _ Hr). congruence.
  - injection Hr as <- Hr. specialize (N b _ Hr). congruence.
Qed.
Lemma no_pair_split ds rest data : octets_of ds data -> no_pair rest -> exists n, (forall c r, split_hex (ds ++ rest) c r -> Zlen c = n) /\ even_down n = Zlen ds.
Proof.
  intros O N. pose proof (octets_of_ok _ _ O) as (L & _ & F & _).
  assert (Ev : forall z, even_down (2 * z) = 2 * z) by (intros z; unfold even_down; rewrite Z.odd_mul; reflexivity).
  assert (Od : forall z, even_down (2 * z + 1) = 2 * z) by (intros z; unfold even_down; rewrite Z.add_comm, Z.odd_add_mul_2; cbn [Z.odd]; lia).
  assert (U : forall a b d r, Forall (fun c => is_xdigit c = true) a -> (forall c r', b = c :: r' -> is_xdigit c = false) -> split_hex (a ++ b) d r -> d = a).
  { intros a b d r Fa Nb H. remember (a ++ b) as s eqn:Es. destruct H as [d r Fd Nd]. revert d Fd Es. induction Fa as [|x a Hx Fa IH]; intros d Fd Es; cbn [app] in Es.
    - destruct d as [|y d]; [reflexivity|]. inversion Fd as [|q w Hy Fd']; subst. cbn [app] in Nb. specialize (Nb y _ eq_refl). congruence.
    - destruct d as [|y d]; [cbn [app] in Es; rewrite Es in Nd; specialize (Nd x _ eq_refl); congruence|]. injection Es as -> Es. f_equal. inversion Fd; subst. apply IH; assumption. }
  destruct rest as [|a rest].
  - exists (Zlen ds). split; [intros c r H; rewrite (U ds [] c r F ltac:(discriminate) H); reflexivity|]. rewrite L. apply Ev.
  - destruct (is_xdigit a) eqn:Ea.
    + exists (Zlen ds + 1). split; [|rewrite L; apply Od]. intros c r H. replace (ds ++ a :: rest) with ((ds ++ [a]) ++ rest) in H by (rewrite <- app_assoc; reflexivity).
      rewrite (U (ds ++ [a]) rest c r); [rewrite Zlen_app3; reflexivity|apply Forall_app; split; [exact F|repeat constructor; exact Ea]| |exact H].
      intros b r' ->. destruct (is_xdigit b) eqn:Eb; [|reflexivity]. exfalso. apply (N a b r' eq_refl). split; apply hex_char_ok; assumption.
    + exists (Zlen ds). split; [|rewrite L; apply Ev]. intros c r H. rewrite (U ds (a :: rest) c r F); [reflexivity| |exact H]. intros b r' X. now injection X as <- _.
Qed.
(** What is read is unique. *)
Lemma reads_prefix str data rest : reads str data rest -> (forall ds c r, str = ds ++ c :: r -> Forall hex_char ds -> c < 256) ->
  exists n, hex_prefix str = Ret n /\ from_hex (firstn (Z.to_nat (even_down n)) str) = data /\ even_down n = 2 * Zlen data.
Proof.
  intros (ds & -> & O & N) L. destruct (no_pair_split ds rest data O N) as (n & U & E). destruct (split_hex_ex (ds ++ rest)) as (d & r & H). specialize (U d r H).
  pose proof (octets_of_ok _ _ O) as (Ol & _ & _ & Ef). exists n. split.
  - rewrite <- U. assert (H' := H). eapply hex_prefix_run; [exact H|]. intros c r' ->. inversion H' as [d0 r0 F0 N0 Q1 Q2 Q3]; subst d0 r0. apply (L d c r'); [congruence|]. eapply Forall_impl; [|exact F0]. intros x Hx. apply hex_char_ok, Hx.
  - rewrite E. split; [|exact Ol]. replace (Z.to_nat (Zlen ds)) with (length ds) by (unfold Zlen; lia). rewrite firstn_app, firstn_all, Nat.sub_diag, firstn_O, app_nil_r. exact Ef.
Qed.

(** ** Painting *)
Definition digits (s : list Z) : Z := Zlen (filter is_xdigit s).
Lemma digits_app a b : digits (a ++ b) = digits a + digits b.
Proof. unfold digits. rewrite filter_app. apply Zlen_app3. Qed.
Lemma digits_nonneg a : 0 <= digits a.
Proof. apply Zlen_nonneg. Qed.
Definition fget (fs : list fmt) (n : nat) : fmt := nth n fs plain_fmt.
(** [fs'] is [fs] with each character changed by [g] *)
Definition painted (g : Z -> bool -> fmt -> fmt) (idx : Z) (text : list Z) (fs fs' : list fmt) : Prop :=
  length fs' = length text /\ forall a c b, text = a ++ c :: b -> fget fs' (length a) = g (idx + digits a) (is_xdigit c) (fget fs (length a)).
Lemma painted_trans g1 g2 idx text f1 f2 f3 : painted g1 idx text f1 f2 -> painted g2 idx text f2 f3 -> painted (fun i x f => g2 i x (g1 i x f)) idx text f1 f3.
Proof. intros [L1 H1] [L2 H2]. split; [exact L2|]. intros a c b E. rewrite (H2 a c b E), (H1 a c b E). reflexivity. Qed.
Lemma painted_id idx text fs : length fs = length text -> painted (fun _ _ f => f) idx text fs fs.
Proof. intros L. split; [exact L|]. reflexivity. Qed.
Lemma painted_ext g1 g2 idx text f1 f2 : (forall i x f, g1 i x f = g2 i x f) -> painted g1 idx text f1 f2 -> painted g2 idx text f1 f2.
Proof. intros E [L H]. split; [exact L|]. intros a c b Et. rewrite (H a c b Et). apply E. Qed.
Lemma paint_ok d o : forall text idx fs, Forall latin text -> length fs = length text ->
  exists fs', paint d o idx text fs = Ret fs' /\ painted (fun i (x : bool) f => if x then d i f else o f) idx text fs fs'.
Proof.
  induction text as [|c text IH]; intros idx fs F L.
  - exists fs. split; [reflexivity|]. split; [exact L|]. intros a c b E. destruct a; discriminate.
  - destruct fs as [|f fs]; [discriminate L|]. inversion F as [|c' t' Hc Ft]; subst. cbn [paint]. rewrite (xdigit_latin c Hc). cbn [bind].
    destruct (IH (if is_xdigit c then idx + 1 else idx) fs Ft ltac:(now injection L)) as (r & -> & Lr & Hr). cbn [bind]. eexists. split; [reflexivity|]. split; [cbn [length]; now rewrite Lr|].
    intros a c0 b E. destruct a as [|a0 a]; cbn [app] in E; injection E as -> E.
    + unfold fget, digits. cbn [length nth filter]. change (Zlen []) with 0. now rewrite Z.add_0_r.
    + unfold fget in *. cbn [length nth]. rewrite (Hr a c0 b E). replace (idx + digits (a0 :: a)) with ((if is_xdigit a0 then idx + 1 else idx) + digits a); [reflexivity|]. unfold digits. cbn [filter]. destruct (is_xdigit a0); [|reflexivity]. unfold Zlen. cbn [length]. lia.
Qed.
Lemma paint_all_ok f : forall ps idx text fs, Forall latin text -> length fs = length text ->
  exists fs', paint_all f ps idx text fs = Ret fs' /\ painted (fun i (x : bool) old => if x && existsb (fun p => within p i) ps then f else old) idx text fs fs'.
Proof.
  induction ps as [|p ps IH]; intros idx text fs F L; cbn [paint_all].
  - exists fs. split; [reflexivity|]. eapply painted_ext; [|apply painted_id, L]. intros i x old. cbn [existsb]. now rewrite andb_false_r.
  - destruct (paint_ok (fun idx old => if within p idx then f else old) (fun old => old) text idx fs F L) as (fs1 & -> & P1). cbn [bind].
    destruct (IH idx text fs1 F (proj1 P1)) as (fs2 & -> & P2). exists fs2. split; [reflexivity|]. eapply painted_ext; [|exact (painted_trans _ _ _ _ _ _ _ P1 P2)].
    intros i x old. cbn [existsb]. cbn beta. destruct x, (within p i), (existsb (fun p0 => within p0 i) ps); reflexivity.
Qed.
(** The format of one character. *)
Definition block_fmt (p : parsed) (emph : bool) (sel block : Z * Z) (i : Z) (x : bool) : fmt :=
  let f := if fst block + snd block <=? p_ber p then plain_fmt
           else if x then (if i <? p_ber p then plain_fmt else invalid_fmt) else non_hex_fmt in
  let f := if emph && x && existsb (fun q => within q i) (p_tags p) then tag_fmt else f in
  let f := if emph && x && existsb (fun q => within q i) (p_pads p) then padding_fmt else f in
  if (-1 <=? fst sel) && (0 <? snd sel) && x && within sel i then selected_fmt f else f.
Lemma fget_repeat n k : fget (repeat plain_fmt n) k = plain_fmt.
Proof. unfold fget. revert k. induction n as [|n IH]; intros [|k]; cbn [repeat nth]; auto. Qed.
Lemma highlight_block_ok p emph sel block text : Forall latin text -> exists fs, highlight_block p emph sel block text = Ret fs /\
  length fs = length text /\ forall a c b, text = a ++ c :: b -> fget fs (length a) = block_fmt p emph sel block (fst block + digits a) (is_xdigit c).
Proof.
  intros F. unfold highlight_block. set (start := fst block). set (fs0 := repeat plain_fmt (length text)). assert (L0 : length fs0 = length text) by apply repeat_length.
  assert (S1 : exists fs, (if start + snd block <=? p_ber p then Ret fs0
     else if p_ber p <=? start then paint (fun _ _ => invalid_fmt) (fun _ => non_hex_fmt) start text fs0
     else paint (fun idx _ => if idx <? p_ber p then plain_fmt else invalid_fmt) (fun _ => non_hex_fmt) start text fs0) = Ret fs /\ length fs = length text /\
     forall a c b, text = a ++ c :: b -> fget fs (length a) = if start + snd block <=? p_ber p then plain_fmt else if is_xdigit c then (if start + digits a <? p_ber p then plain_fmt else invalid_fmt) else non_hex_fmt).
  { destruct (start + snd block <=? p_ber p); [exists fs0; split; [reflexivity|]; split; [exact L0|]; intros; apply fget_repeat|].
    destruct (Z.leb_spec (p_ber p) start) as [Hs|Hs].
    - destruct (paint_ok (fun _ _ => invalid_fmt) (fun _ => non_hex_fmt) text start fs0 F L0) as (fs & E & L & H). exists fs. split; [exact E|]. split; [exact L|]. intros a c b Et. rewrite (H a c b Et).
      pose proof (digits_nonneg a). destruct (Z.ltb_spec (start + digits a) (p_ber p)); [lia|reflexivity].
    - destruct (paint_ok (fun idx _ => if idx <? p_ber p then plain_fmt else invalid_fmt) (fun _ => non_hex_fmt) text start fs0 F L0) as (fs & E & L & H). exists fs. split; [exact E|]. split; [exact L|]. intros a c b Et. rewrite (H a c b Et). reflexivity. }
  destruct S1 as (fs1 & -> & L1 & H1). cbn [bind].
  assert (S2 : exists fs, (if emph then let* fs := paint_all tag_fmt (p_tags p) start text fs1 in paint_all padding_fmt (p_pads p) start text fs else Ret fs1) = Ret fs /\
     painted (fun i x old => if emph && x && existsb (fun q => within q i) (p_pads p) then padding_fmt else if emph && x && existsb (fun q => within q i) (p_tags p) then tag_fmt else old) start text fs1 fs).
  { destruct emph; [|exists fs1; split; [reflexivity|apply painted_id, L1]]. destruct (paint_all_ok tag_fmt (p_tags p) start text fs1 F L1) as (f2 & -> & P2). cbn [bind].
    destruct (paint_all_ok padding_fmt (p_pads p) start text f2 F (proj1 P2)) as (f3 & -> & P3). exists f3. split; [reflexivity|]. exact (painted_trans _ _ _ _ _ _ _ P2 P3). }
  destruct S2 as (fs2 & -> & P2). cbn [bind].
  assert (S3 : exists fs, (if (-1 <=? fst sel) && (0 <? snd sel) then paint (fun idx f => if within sel idx then selected_fmt f else f) (fun f => f) start text fs2 else Ret fs2) = Ret fs /\
     painted (fun i (x : bool) f => if (-1 <=? fst sel) && (0 <? snd sel) && x && within sel i then selected_fmt f else f) start text fs2 fs).
  { destruct ((-1 <=? fst sel) && (0 <? snd sel)); [|exists fs2; split; [reflexivity|apply painted_id, P2]].
    destruct (paint_ok (fun idx f => if within sel idx then selected_fmt f else f) (fun f => f) text start fs2 F (proj1 P2)) as (f3 & -> & P3). exists f3. split; [reflexivity|].
    eapply painted_ext; [|exact P3]. intros i x f. destruct x; reflexivity. }
  destruct S3 as (fs3 & -> & P3). exists fs3. split; [reflexivity|]. destruct (painted_trans _ _ _ _ _ _ _ P2 P3) as [L H]. split; [exact L|].
  intros a c b Et. rewrite (H a c b Et), (H1 a c b Et). reflexivity.
Qed.
Lemma highlight_blocks_ok p emph sel : forall blocks s0, Forall (Forall latin) blocks -> exists fss, highlight_blocks p emph sel (block_data s0 blocks) blocks = Ret fss /\ length fss = length blocks /\
  forall before text after, blocks = before ++ text :: after -> length (nth (length before) fss []) = length text /\ forall a c b, text = a ++ c :: b ->
    fget (nth (length before) fss []) (length a) = block_fmt p emph sel (s0 + Zlen (stripped (List.concat before)), Zlen (stripped text)) (s0 + Zlen (stripped (List.concat before)) + digits a) (is_xdigit c).
Proof.
  induction blocks as [|text0 blocks IH]; intros s0 F; cbn [block_data highlight_blocks].
  - exists []. split; [reflexivity|]. split; [reflexivity|]. intros before text after E. destruct before; discriminate.
  - inversion F as [|x y Ft Fb]; subst. destruct (highlight_block_ok p emph sel (s0, Zlen (stripped text0)) text0 Ft) as (f & -> & Lf & Hf). cbn [bind].
    destruct (IH (s0 + Zlen (stripped text0)) Fb) as (fss & -> & Ls & Hs). cbn [bind]. eexists. split; [reflexivity|]. split; [cbn [length]; now rewrite Ls|].
    intros before text after E. destruct before as [|b0 before]; cbn [app] in E; injection E as -> E.
    + cbn [length nth List.concat]. split; [exact Lf|]. intros a c b Et. rewrite (Hf a c b Et). change (Zlen (stripped [])) with 0. rewrite Z.add_0_r. reflexivity.
    + cbn [length nth List.concat]. destruct (Hs before text after E) as [Hl H]. split; [exact Hl|]. intros a c b Et. rewrite (H a c b Et). rewrite stripped_app, Zlen_app3, !Z.add_assoc. reflexivity.
Qed.

(** ** The positions *)
Lemma tags_covered ms ps i : Forall2 mark_at ms ps -> existsb (fun q => within q i) (tag_positions ms) = true <-> covered ps as_tag i.
Proof.
  intros F. split.
  - intros H. apply existsb_exists in H as (q & Hq & W). unfold tag_positions in Hq. apply in_flat_map in Hq as (m & Hm & Hq). destruct m as [off tag|]; [|destruct Hq]. destruct Hq as [<-|[]].
    unfold within in W. cbn [fst snd] in W. apply andb_prop in W as [W1 W2]. apply Z.leb_le in W1. apply Z.ltb_lt in W2.
    clear - F Hm W1 W2. induction F as [|m p ms ps H F IH]; [destruct Hm|]. destruct Hm as [-> |Hm].
    + destruct p as [o n|]; [|destruct H]. destruct H as [<- Hn]. exists (TagAt off n), off, n. split; [left; reflexivity|]. split; [reflexivity|lia].
    + destruct (IH Hm) as (p' & o & n & Hp & E & R). exists p', o, n. split; [right; exact Hp|auto].
  - intros (p & off & n & Hp & E & R). apply existsb_exists. induction F as [|m p' ms ps H F IH]; [destruct Hp|]. destruct Hp as [-> |Hp].
    + destruct p; [|discriminate]. injection E as -> ->. destruct m as [o tag|]; [|destruct H]. destruct H as [-> Hn]. exists (off * 2, tag_digits tag * 2). split; [left; reflexivity|]. unfold within. cbn [fst snd]. lia.
    + destruct (IH Hp) as (q & Hq & W). exists q. split; [|exact W]. unfold tag_positions. cbn [flat_map]. apply in_or_app. right. exact Hq.
Qed.
Lemma pads_covered ms ps i : Forall2 mark_at ms ps -> existsb (fun q => within q i) (pad_positions ms) = true <-> covered ps as_pad i.
Proof.
  intros F. split.
  - intros H. apply existsb_exists in H as (q & Hq & W). unfold pad_positions in Hq. apply in_flat_map in Hq as (m & Hm & Hq). destruct m as [|off k]; [destruct Hq|]. destruct Hq as [<-|[]].
    unfold within in W. cbn [fst snd] in W. apply andb_prop in W as [W1 W2]. apply Z.leb_le in W1. apply Z.ltb_lt in W2.
    clear - F Hm W1 W2. induction F as [|m p ms ps H F IH]; [destruct Hm|]. destruct Hm as [-> |Hm].
    + destruct p as [|o n]; [destruct H|]. destruct H as [<- Hn]. exists (PadAt off n), off, n. split; [left; reflexivity|]. split; [reflexivity|lia].
    + destruct (IH Hm) as (p' & o & n & Hp & E & R). exists p', o, n. split; [right; exact Hp|auto].
  - intros (p & off & n & Hp & E & R). apply existsb_exists. induction F as [|m p' ms ps H F IH]; [destruct Hp|]. destruct Hp as [-> |Hp].
    + destruct p; [discriminate|]. injection E as -> ->. destruct m as [|o k]; [destruct H|]. destruct H as [-> ->]. exists (off * 2, n * 2). split; [left; reflexivity|]. unfold within. cbn [fst snd]. lia.
    + destruct (IH Hp) as (q & Hq & W). exists q. split; [|exact W]. unfold pad_positions. cbn [flat_map]. apply in_or_app. right. exact Hq.
Qed.
(** Places are within the valid octets. *)
Definition place_end (p : place) : Z := match p with TagAt off n => off + n | PadAt off n => off + n end.
Lemma places_in ign data ps valid ok : bytes data -> small data -> data_layout ign data ps valid ok ->
  exists ms, parse_ber ign data = Ret (ok, ms, valid) /\ Forall2 mark_at ms ps /\ 0 <= valid <= Zlen data /\ Forall (fun p => place_end p <= valid) ps.
Proof.
  intros B S L. destruct (parse_layout ign data ps valid ok B S L) as (ms & E & F). exists ms. split; [exact E|]. split; [exact F|].
  destruct (walk_any ign (Datatypes.S (length data)) data [] [] data data 0 0) as (ok' & ms' & v' & E' & R & _ & M & _); [now rewrite app_nil_r|reflexivity|lia|exact B|exact S|lia|].
  unfold parse_ber, ber_itr_init in E. rewrite E in E'. injection E' as <- <- <-. split; [lia|]. clear - F M. induction F as [|m p ms ps H F IH]; [constructor|]. inversion M as [|x y Hm Ms]; subst. constructor; [|apply IH, Ms].
  destruct m as [o t|o k], p as [o' n|o' n]; cbn [mark_at mark_in place_end] in *; try contradiction.
  - destruct H as [<- Hn]. destruct Hm as (pre & id & post & _ & _ & Hid & Ht & Hl). rewrite <- Ht, tag_digits_ok in Hn by exact Hid. lia.
  - destruct H as [<- <-]. lia.
Qed.
Lemma covered_lt ps valid sort i : (forall p off n, sort p = Some (off, n) -> place_end p = off + n) -> Forall (fun p => place_end p <= valid) ps -> covered ps sort i -> i < 2 * valid.
Proof. intros S F (p & off & n & Hp & E & R). rewrite Forall_forall in F. specialize (F p Hp). cbn beta in F. rewrite (S p off n E) in F. lia. Qed.
Lemma as_tag_end p off n : as_tag p = Some (off, n) -> place_end p = off + n.
Proof. destruct p; cbn; [intros E; now injection E as -> ->|discriminate]. Qed.
Lemma as_pad_end p off n : as_pad p = Some (off, n) -> place_end p = off + n.
Proof. destruct p; cbn; [discriminate|intros E; now injection E as -> ->]. Qed.
(** A digit that is within the count, or beyond the data in both ways of counting. *)
Lemma block_fmt_digit emph sel ps valid ms block i idx len : Forall2 mark_at ms ps -> Forall (fun p => place_end p <= valid) ps -> 0 <= valid <= len ->
  (0 < snd sel -> 0 <= fst sel /\ fst sel + snd sel <= 2 * len) -> (idx = i \/ (2 * len <= idx /\ 2 * len <= i)) -> (fst block + snd block <= valid * 2 -> idx < valid * 2) ->
  forall bl, digit_fmt emph sel ps valid i (block_fmt (mkParsed bl (valid * 2) (tag_positions ms) (pad_positions ms)) emph sel block idx true).
Proof.
  intros F Pl V Sel Hi Hb bl. unfold block_fmt. cbn [p_ber p_tags p_pads].
  assert (Ct : covered ps as_tag i <-> covered ps as_tag idx). { destruct Hi as [-> |[A B]]; [reflexivity|]. split; intros C; apply (covered_lt ps valid as_tag _ as_tag_end Pl) in C; lia. }
  assert (Cp : covered ps as_pad i <-> covered ps as_pad idx). { destruct Hi as [-> |[A B]]; [reflexivity|]. split; intros C; apply (covered_lt ps valid as_pad _ as_pad_end Pl) in C; lia. }
  assert (Bt : existsb (fun q => within q idx) (tag_positions ms) = true <-> covered ps as_tag i) by (rewrite Ct; apply tags_covered, F).
  assert (Bp : existsb (fun q => within q idx) (pad_positions ms) = true <-> covered ps as_pad i) by (rewrite Cp; apply pads_covered, F).
  set (bt := existsb (fun q => within q idx) (tag_positions ms)) in *. set (bp := existsb (fun q => within q idx) (pad_positions ms)) in *. clearbody bt bp. rewrite !andb_true_r.
  set (f := if emph && bp then padding_fmt else if emph && bt then tag_fmt else if fst block + snd block <=? valid * 2 then plain_fmt else if idx <? valid * 2 then plain_fmt else invalid_fmt).
  assert (Bf : base_fmt emph ps valid i f).
  { subst f. destruct emph; cbn [andb].
    - destruct bp; [apply bf_pad; [reflexivity|apply Bp; reflexivity]|]. assert (Np : ~ covered ps as_pad i) by (intros C; apply Bp in C; discriminate).
      destruct bt; [apply bf_tag; [reflexivity|exact Np|apply Bt; reflexivity]|]. assert (Nt : ~ covered ps as_tag i) by (intros C; apply Bt in C; discriminate).
      destruct (Z.leb_spec (fst block + snd block) (valid * 2)); [apply bf_plain; [tauto|specialize (Hb ltac:(lia)); lia]|]. destruct (Z.ltb_spec idx (valid * 2)); [apply bf_plain; [tauto|lia]|apply bf_bad; [tauto|lia]].
    - destruct (Z.leb_spec (fst block + snd block) (valid * 2)); [apply bf_plain; [intros [? _]; discriminate|specialize (Hb ltac:(lia)); lia]|]. destruct (Z.ltb_spec idx (valid * 2)); [apply bf_plain; [intros [? _]; discriminate|lia]|apply bf_bad; [intros [? _]; discriminate|lia]]. }
  destruct (Z.ltb_spec 0 (snd sel)) as [Sp|Sp].
  - destruct (Sel Sp) as [S0 S1]. destruct (Z.leb_spec (-1) (fst sel)); [|lia]. cbn [andb]. unfold within. destruct (Z.leb_spec (fst sel) idx); cbn [andb]; [destruct (Z.ltb_spec idx (fst sel + snd sel))|].
    + apply df_selected; [exact Sp|lia|exact Bf].
    + apply df_base; [lia|exact Bf].
    + apply df_base; [lia|exact Bf].
  - rewrite andb_false_r. cbn [andb]. apply df_base; [lia|exact Bf].
Qed.
Lemma digits_hex s : Forall (fun c => is_xdigit c = true) (stripped s) -> digits s = Zlen (stripped s).
Proof.
  unfold digits. induction s as [|c s IH]; [reflexivity|]. unfold stripped in *. cbn [filter]. destruct (is_xdigit c) eqn:E.
  - destruct (hex_latin c E) as [_ Q]. rewrite Q. cbn [negb]. intros F. inversion F; subst. unfold Zlen in *. cbn [length]. rewrite !Nat2Z.inj_succ, IH by assumption. reflexivity.
  - destruct (q_space c) eqn:Q; cbn [negb]; [apply IH|]. intros F. inversion F; subst. congruence.
Qed.
Lemma digits_stripped s : digits (stripped s) = digits s.
Proof.
  unfold digits, stripped. f_equal. induction s as [|c s IH]; [reflexivity|]. cbn [filter]. destruct (q_space c) eqn:Q; cbn [negb filter].
  - destruct (is_xdigit c) eqn:E; [|exact IH]. apply hex_latin in E as [_ E]. congruence.
  - destruct (is_xdigit c); rewrite IH; reflexivity.
Qed.
Lemma filter_le {A} (f : A -> bool) l : (length (filter f l) <= length l)%nat.
Proof. induction l as [|x l IH]; [reflexivity|]. cbn [filter]. destruct (f x); cbn [length]; lia. Qed.
Lemma digits_le s : digits s <= Zlen (stripped s).
Proof. rewrite <- digits_stripped. unfold digits, Zlen. pose proof (filter_le is_xdigit (stripped s)). lia. Qed.
Lemma prefix_cases {A} (a b c d : list A) : a ++ b = c ++ d -> (exists m, c = a ++ m /\ b = m ++ d) \/ (exists m, a = c ++ m /\ d = m ++ b).
Proof.
  revert c. induction a as [|x a IH]; intros c E; [left; exists c; auto|]. destruct c as [|y c]; [right; exists (x :: a); auto|]. injection E as -> E. destruct (IH c E) as [(m & -> & Hm)|(m & -> & Hm)]; [left|right]; exists m; auto.
Qed.
(** Counting hex digits in the block, or all characters in the document. *)
Lemma index_ok ds rest pre a post : Forall (fun c => is_xdigit c = true) ds -> stripped (pre ++ a ++ post) = ds ++ rest ->
  let i := Zlen (stripped (pre ++ a)) in let idx := Zlen (stripped pre) + digits a in idx = i \/ (Zlen ds <= idx /\ Zlen ds <= i).
Proof.
  intros F E i idx. subst i idx. rewrite app_assoc, stripped_app in E. pose proof (digits_le pre) as Dp. pose proof (digits_le a) as Da. rewrite stripped_app, Zlen_app3. destruct (prefix_cases _ _ _ _ E) as [(m & Hm & _)|(m & Hm & _)].
  - left. rewrite Hm in F. apply Forall_app in F as [F _]. rewrite stripped_app in F. apply Forall_app in F as [_ F]. now rewrite (digits_hex a F).
  - right. assert (Dd : digits (pre ++ a) = Zlen ds + digits m). { rewrite <- digits_stripped, Hm, digits_app. f_equal. unfold digits. f_equal. clear - F. induction F as [|c ds Hc F IH]; [reflexivity|]. cbn [filter]. now rewrite Hc, IH. }
    rewrite digits_app in Dd. pose proof (digits_nonneg m). pose proof (Zlen_nonneg (stripped a)). lia.
Qed.
Lemma nonhex_pos ds rest pre c post : Forall (fun c => is_xdigit c = true) ds -> stripped (pre ++ c :: post) = ds ++ rest -> q_space c = false -> is_xdigit c = false -> Zlen ds <= Zlen (stripped pre).
Proof.
  intros F E Q X. rewrite stripped_app in E. unfold stripped at 2 in E. cbn [filter] in E. rewrite Q in E. cbn [negb] in E. destruct (prefix_cases _ _ _ _ E) as [(m & Hm & Hm')|(m & Hm & _)].
  - destruct m as [|y m]; [rewrite app_nil_r in Hm; rewrite Hm; lia|]. cbn [app] in Hm'. injection Hm' as -> _. rewrite Hm in F. apply Forall_app in F as [_ F]. inversion F; subst. congruence.
  - rewrite Hm, Zlen_app3. pose proof (Zlen_nonneg m). lia.
Qed.

Theorem highlight_ok ign emph sel blocks data rest ps valid ok : Forall (Forall latin) blocks -> reads (stripped (List.concat blocks)) data rest -> small data -> data_layout ign data ps valid ok ->
  (0 < snd sel -> 0 <= fst sel /\ fst sel + snd sel <= 2 * Zlen data) ->
  exists fss, highlight ign emph sel blocks = Ret fss /\ length fss = length blocks /\
    forall before text after, blocks = before ++ text :: after -> length (nth (length before) fss []) = length text /\ forall a c b, text = a ++ c :: b ->
      let f := nth (length a) (nth (length before) fss []) plain_fmt in let i := Zlen (stripped (List.concat before ++ a)) in
      (hex_char c -> digit_fmt emph sel ps valid i f) /\ (~ hex_char c -> visible c -> f = non_hex_fmt) /\ (~ visible c -> f = plain_fmt \/ f = non_hex_fmt) /\
      (~ visible c -> Zlen (stripped (List.concat before ++ text)) <= 2 * valid -> f = plain_fmt).
Proof.
  intros Fl Rd Sm La Sel. unfold highlight, parse_blocks. rewrite stripped_concat. set (str := stripped (List.concat blocks)) in *.
  assert (Ll : Forall latin str) by (apply stripped_Forall, Forall_concat, Fl).
  destruct (reads_prefix str data rest Rd) as (n & Hn & Ed & En). { intros ds c r E _. rewrite E in Ll. apply Forall_app in Ll as [_ Ll]. inversion Ll; subst. unfold latin in *. lia. }
  rewrite Hn. cbn [bind]. rewrite Ed. destruct Rd as (ds & Es & Oc & _). pose proof (octets_of_ok _ _ Oc) as (Ol & By & Fd & _).
  destruct (places_in ign data ps valid ok By Sm La) as (ms & -> & Fm & Hv & Pl). cbn [bind p_blocks]. set (P := mkParsed _ _ _ _).
  destruct (highlight_blocks_ok P emph sel blocks 0 Fl) as (fss & E & Lf & H). exists fss. split; [exact E|]. split; [exact Lf|]. intros before text after Eb. destruct (H before text after Eb) as [Hl Hc]. split; [exact Hl|].
  intros a c b Et. set (f := nth (length a) (nth (length before) fss []) plain_fmt). set (i := Zlen (stripped (List.concat before ++ a))). specialize (Hc a c b Et). unfold fget in Hc. fold f in Hc. rewrite Z.add_0_l in Hc.
  assert (Es' : stripped (List.concat before ++ a ++ (c :: b) ++ List.concat after) = ds ++ rest). { rewrite <- Es. unfold str. rewrite Eb, Et, concat_app. cbn [List.concat]. now rewrite <- !app_assoc. }
  assert (Lt : Zlen (stripped text) = Zlen (stripped a) + Zlen (stripped [c]) + Zlen (stripped b)). { rewrite Et. change (a ++ c :: b) with (a ++ [c] ++ b). rewrite !stripped_app, !Zlen_app3. lia. }
  pose proof (Zlen_nonneg (stripped b)) as B0. pose proof (Zlen_nonneg (stripped [c])) as C0. pose proof (digits_le a) as Da.
  split; [|split; [|split]].
  - intros Hx. apply hex_char_ok in Hx. rewrite Hc, Hx. assert (C1 : Zlen (stripped [c]) = 1) by (unfold stripped; cbn [filter]; destruct (hex_latin c Hx) as [_ ->]; reflexivity).
    apply (block_fmt_digit emph sel ps valid ms _ i _ (Zlen data)); [exact Fm|exact Pl|exact Hv|exact Sel| |].
    + destruct (index_ok ds rest (List.concat before) a _ Fd Es') as [X|X]; [left; exact X|right]. rewrite <- Ol. exact X.
    + cbn [fst snd]. lia.
  - intros Nx Vc. destruct (is_xdigit c) eqn:Xc; [exfalso; apply Nx, hex_char_ok, Xc|]. rewrite Hc. unfold block_fmt. cbn [fst snd].
    assert (Np : Zlen ds <= Zlen (stripped (List.concat before ++ a))). { apply (nonhex_pos ds rest _ c (b ++ List.concat after) Fd); [rewrite <- Es', <- !app_assoc; reflexivity|exact Vc|exact Xc]. }
    rewrite stripped_app, Zlen_app3 in Np. assert (C1 : Zlen (stripped [c]) = 1) by (unfold stripped; cbn [filter]; unfold visible in Vc; rewrite Vc; reflexivity).
    subst P. cbn [p_ber]. rewrite !andb_false_r. cbn [andb]. destruct (Z.leb_spec (Zlen (stripped (List.concat before)) + Zlen (stripped text)) (valid * 2)); [lia|reflexivity].
  - intros Vc. destruct (is_xdigit c) eqn:Xc; [exfalso; apply Vc; apply hex_latin, Xc|]. rewrite Hc. unfold block_fmt. rewrite !andb_false_r. cbn [andb]. destruct (_ <=? _); auto.
  - intros Vc Hle. destruct (is_xdigit c) eqn:Xc; [exfalso; apply Vc; apply hex_latin, Xc|]. rewrite Hc. unfold block_fmt. cbn [fst snd]. rewrite !andb_false_r. cbn [andb].
    rewrite stripped_app, Zlen_app3 in Hle. subst P. cbn [p_ber]. destruct (Z.leb_spec (Zlen (stripped (List.concat before)) + Zlen (stripped text)) (valid * 2)); [reflexivity|lia].
Qed.
