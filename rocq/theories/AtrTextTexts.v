(** The texts of the characters of an answer to reset. *)
From Coq Require Import String.
From Verif Require Import Base BaseLemmas DolSpec StrModel StrSpec AtrModel AtrSpec AtrProofs CapduSpec CapduProofs AtrTextModel AtrTextSpec AtrTextProofs.
From Verif Require FlagsTexts.
Open Scope Z_scope.
Open Scope list_scope.

Lemma dec_nz v : 0 <= v < 10000000000 -> nz (dec v).
Proof. apply FlagsTexts.decimal_text_nz. Qed.
Lemma dec_eq v : 0 <= v < 10000000000 -> p_dec v = dec v.
Proof. apply FlagsTexts.p_dec_text. Qed.
Ltac nzt := repeat apply nz_app; first [litnz | apply dec_nz; lia | assumption | idtac].
Ltac decs := rewrite !dec_eq by lia.
Lemma shown_more str new d s : shown str new d -> (length str <= length d)%nat -> shown str new (d ++ s).
Proof. intros (L & C) Ld. split; [exact L|]. rewrite C. f_equal. rewrite firstn_app. replace (length str - 1 - length d)%nat with 0%nat by lia. cbn [firstn]. rewrite app_nil_r. reflexivity. Qed.

(** ** Interface bytes that follow *)
Definition ith (i : nat) (g : group) (gs : list group) : Prop :=
  gA g = byte_of gA i gs /\ gB g = byte_of gB i gs /\ gC g = byte_of gC i gs /\ gD g = byte_of gD i gs.
Lemma bytes_text_nz i g : 0 <= i < 10 -> nz (bytes_text i g).
Proof.
  intros H. unfold bytes_text, join.
  assert (Q : forall s (o : option Z), nz (lit s) -> Forall nz (match o with Some _ => [lit s ++ dec i] | None => [] end : list (list Z))).
  { intros s o Hs. destruct o as [z|]; constructor; [apply nz_app; [exact Hs|apply dec_nz; lia]|constructor]. }
  assert (F : Forall nz ((match gA g with Some _ => [lit "TA" ++ dec i] | None => [] end) ++ (match gB g with Some _ => [lit "TB" ++ dec i] | None => [] end) ++
    (match gC g with Some _ => [lit "TC" ++ dec i] | None => [] end) ++ (match gD g with Some _ => [lit "TD" ++ dec i] | None => [] end))).
  { repeat (apply Forall_app; split); apply Q; litnz. }
  revert F. generalize ((match gA g with Some _ => [lit "TA" ++ dec i] | None => [] end) ++ (match gB g with Some _ => [lit "TB" ++ dec i] | None => [] end) ++
    (match gC g with Some _ => [lit "TC" ++ dec i] | None => [] end) ++ (match gD g with Some _ => [lit "TD" ++ dec i] | None => [] end)).
  intros l F. apply nz_app; [litnz|]. apply nz_app; [apply dec_nz; lia|]. apply nz_app; [litnz|].
  destruct F as [|s l Hs Hl]; [constructor|]. apply nz_app; [exact Hs|]. induction Hl as [|t l Ht Hl IH]; [constructor|]. cbn [flat_map]. apply nz_app; [apply nz_app; [litnz|exact Ht]|exact IH].
Qed.
Lemma Yi_ok gs x i g str : (1 <= i <= 4)%nat -> presents gs x -> ith i g gs -> str <> [] ->
  exists r new, Yi_write_string x i str = Ret (r, new) /\ shown str new (bytes_text (Z.of_nat i) g) /\
  ((r = length (bytes_text (Z.of_nat i) g) /\ (r < length str)%nat /\ exists tl, new = bytes_text (Z.of_nat i) g ++ tl /\ tl <> []) \/
   ((length str <= r)%nat /\ (length str <= length (bytes_text (Z.of_nat i) g))%nat)).
Proof.
  intros Hi P (I1 & I2 & I3 & I4) Hs. unfold Yi_write_string. replace ((i <? 1) || (4 <? i))%nat with false by (symmetry; apply orb_false_iff; split; apply Nat.ltb_ge; lia).
  destruct (P i ltac:(lia)) as (P1 & P2 & P3 & P4). rewrite P1, P2, P3, P4, <- I1, <- I2, <- I3, <- I4. rewrite dec_eq by lia. set (n := dec (Z.of_nat i)).
  assert (Nn : nz n) by (apply dec_nz; lia).
  set (pieces := _ :: _).
  assert (E : List.concat pieces = bytes_text (Z.of_nat i) g).
  { unfold pieces, bytes_text. cbn [List.concat]. rewrite commas_join. fold n. rewrite <- !app_assoc. do 3 f_equal. f_equal.
    unfold some_of. cbn [flat_map fst snd app]. rewrite app_nil_r. destruct (gA g), (gB g), (gC g), (gD g); reflexivity. }
  rewrite <- E.
  assert (N : Forall nz pieces).
  { constructor; [nzt|]. apply commas_nz; [litnz|constructor|]. repeat (constructor; [cbn [snd]; nzt|]). constructor. }
  destruct (write_all_0 pieces str Hs ltac:(discriminate) N) as (ok & r & new & -> & S & C). cbn [bind]. exists r, new. auto.
Qed.
Lemma T0_ok ts t0 gs g x str : facts ts t0 gs x -> hd_error gs = Some g -> str <> [] -> exists new, T0_get_string x str = Ret (true, new) /\ shown str new (T0_text t0 g).
Proof.
  intros F Hg Hs. destruct gs as [|g' gs]; [discriminate|]. injection Hg as ->.
  destruct (Yi_ok (g :: gs) x 1 g str ltac:(lia) (f_present _ _ _ _ F) ltac:(repeat split) Hs) as (r & new & E & S & C). unfold T0_get_string. rewrite E. cbn [bind].
  change (Z.of_nat 1) with 1 in *. destruct S as (Ls & S). rewrite Ls. assert (Km : 0 <= t0 mod 16 < 16) by (apply Z.mod_pos_bound; lia).
  rewrite (f_K _ _ _ _ F), dec_eq by lia. unfold T0_text. destruct C as [(-> & Lr & T)|(Lr & Lt)].
  - destruct (Nat.leb_spec (length str) (length (bytes_text 1 g))); [lia|].
    destruct (then_shown str new (bytes_text 1 g) (lit "; K=" ++ dec (t0 mod 16))) as (new' & -> & S'); [split; assumption|apply bytes_text_nz; lia|nzt|lia|exact T|].
    exists new'. split; [reflexivity|exact S'].
  - destruct (Nat.leb_spec (length str) r); [|lia]. exists new. split; [reflexivity|]. apply shown_more; [split; assumption|exact Lt].
Qed.
Lemma TD_ok ts t0 gs i t g x str : facts ts t0 gs x -> (1 <= i <= 3)%nat -> byte_of gD i gs = Some t -> nth_error gs i = Some g -> str <> [] ->
  exists new, TDi_get_string x i str = Ret (true, new) /\ shown str new (TD_text (Z.of_nat i) t g).
Proof.
  intros F Hi Ht Hg Hs. unfold TDi_get_string. replace ((i <? 1) || (4 <? i))%nat with false by (symmetry; apply orb_false_iff; split; apply Nat.ltb_ge; lia).
  destruct (f_present _ _ _ _ F i ltac:(lia)) as (_ & _ & _ & ->). rewrite Ht. cbn [is_some negb].
  assert (I : ith (i + 1) g gs) by (unfold ith, byte_of; replace (i + 1 - 1)%nat with i by lia; rewrite Hg; auto).
  destruct (Yi_ok gs x (i + 1) g str ltac:(lia) (f_present _ _ _ _ F) I Hs) as (r & new & -> & S & C). cbn [bind].
  replace (Z.of_nat (i + 1)) with (Z.of_nat i + 1) in * by lia. destruct S as (Ls & S). rewrite Ls. unfold TD_text.
  destruct C as [(-> & Lr & T)|(Lr & Lt)].
  - destruct (Nat.leb_spec (length str) (length (bytes_text (Z.of_nat i + 1) g))); [lia|].
    unfold TD_protocol. destruct (f_deref _ _ _ _ F i ltac:(lia)) as (_ & _ & _ & ->). rewrite Ht. cbn [bind]. rewrite land15. fold (prot t).
    assert (Km : 0 <= prot t < 16) by (apply Z.mod_pos_bound; lia). rewrite dec_eq by lia.
    assert (Es : (if prot t =? 15 then lit "; Global (T=" ++ dec (prot t) ++ lit ")" else lit "; Protocol T=" ++ dec (prot t)) =
      (if prot t =? 15 then lit "; Global (T=15)" else lit "; Protocol T=" ++ dec (prot t))).
    { destruct (Z.eqb_spec (prot t) 15) as [->|]; reflexivity. }
    rewrite Es.
    destruct (then_shown str new (bytes_text (Z.of_nat i + 1) g) (if prot t =? 15 then lit "; Global (T=15)" else lit "; Protocol T=" ++ dec (prot t))) as (new' & -> & S');
      [split; assumption|apply bytes_text_nz; lia|destruct (prot t =? 15); nzt|lia|exact T|].
    exists new'. split; [reflexivity|exact S'].
  - destruct (Nat.leb_spec (length str) r); [|lia]. exists new. split; [reflexivity|]. apply shown_more; [split; assumption|exact Lt].
Qed.

(** ** TA1, TA2, TB1, TB2, TC1, TC2 *)
Lemma table7_fmax k f m : In (k, (f, m)) table7 -> 372 <= f <= 2048 /\ 40 <= m <= 200.
Proof. intro H. cbn in H. repeat (destruct H as [H|H]; [injection H as <- <- <-; lia|]). destruct H. Qed.
Lemma ta1_facts ts t0 gs x : facts ts t0 gs x -> ta1_values gs (p_Fi (i_params x)) (p_Di (i_params x)) (p_fmax (i_params x)).
Proof. intros F. destruct (f_params _ _ _ _ F) as ((_ & R2) & _). destruct (f_more _ _ _ _ F) as (R1 & _). split; assumption. Qed.
Lemma TA1_ok ts t0 gs x str Fi Di fm : facts ts t0 gs x -> ta1_values gs Fi Di fm -> str <> [] ->
  exists new, TAi_get_string x 1 str = Ret (true, new) /\ shown str new (rate_text Fi Di fm (Fi / Di) (fm * 100000 / (Fi / Di))).
Proof.
  intros F (V1 & V2) Hs. pose proof (ta1_facts _ _ _ _ F) as (R1 & R2). cbn zeta in *.
  assert (E1 : (p_Fi (i_params x), p_fmax (i_params x)) = (Fi, fm)).
  { apply (assoc_in _ _ nodup7) in R1. apply (assoc_in _ _ nodup7) in V1. congruence. }
  assert (E2 : p_Di (i_params x) = Di).
  { apply (assoc_in _ _ nodup8) in R2. apply (assoc_in _ _ nodup8) in V2. congruence. }
  injection E1 as E1 E3. unfold TAi_get_string. cbn [Nat.ltb Nat.leb orb Nat.eqb]. rewrite E1, E2, E3.
  apply table7_fmax in V1. apply table8_range in V2. unfold udiv. destruct (Z.eqb_spec Di 0); [lia|]. cbn [bind].
  assert (C : 5 <= Fi / Di <= 2048).
  { split; [transitivity (372 / 64); [cbv; discriminate|]|]; [etransitivity; [apply Z.div_le_mono with (b := Fi); lia|apply Z.div_le_compat_l; lia]|].
    transitivity (Fi / 1); [apply Z.div_le_compat_l; lia|rewrite Z.div_1_r; lia]. }
  destruct (Z.eqb_spec (Fi / Di) 0); [lia|]. cbn [bind].
  assert (R : 0 <= fm * 100000 / (Fi / Di) <= 20000000).
  { split; [apply Z.div_pos; lia|]. transitivity (fm * 100000 / 1); [apply Z.div_le_compat_l; lia|rewrite Z.div_1_r; lia]. }
  unfold rate_text, p_1f. assert (0 <= fm / 10 <= 20) by (split; [apply Z.div_pos; lia|apply Z.div_le_upper_bound; lia]). assert (0 <= fm mod 10 < 10) by (apply Z.mod_pos_bound; lia).
  rewrite !dec_eq by lia. rewrite <- !app_assoc. apply tell_shown; [exact Hs|]. nzt.
Qed.
Lemma TA2_text_ok ts t0 gs x str : facts ts t0 gs x -> str <> [] ->
  exists new, TAi_get_string x 2 str = Ret (true, new) /\ shown str new (TA2_text (byte_of gA 2 gs)).
Proof.
  intros F Hs. unfold TAi_get_string. cbn [Nat.ltb Nat.leb orb Nat.eqb]. destruct (f_present _ _ _ _ F 2%nat ltac:(lia)) as (-> & _).
  destruct (f_more _ _ _ _ F) as (_ & _ & M & _). unfold TA2_ok in M. unfold TA2_text. destruct (byte_of gA 2 gs) as [a|]; cbn [is_some].
  - destruct (M a eq_refl) as (-> & -> & ->). assert (Km : 0 <= prot a < 16) by (apply Z.mod_pos_bound; lia). rewrite dec_eq by lia.
    replace (if negb (Z.testbit a 7) then lit "mutable" else lit "immutable") with (lit (if Z.testbit a 7 then "immutable" else "mutable")) by (destruct (Z.testbit a 7); reflexivity).
    replace (if Z.testbit a 4 then lit " is implicit" else lit "=Fi/Di") with (lit (if Z.testbit a 4 then " is implicit" else "=Fi/Di")) by (destruct (Z.testbit a 4); reflexivity).
    apply tell_shown; [exact Hs|]. destruct (Z.testbit a 7), (Z.testbit a 4); nzt.
  - apply tell_shown; [exact Hs|litnz].
Qed.
Lemma byte_is ts t0 gs x f i b : facts ts t0 gs x -> (f = gA \/ f = gB \/ f = gC \/ f = gD) -> byte_of f i gs = Some b -> is_byte b.
Proof.
  intros F H. apply byte_of_byte. intros g Hg. destruct (group_bytes gs (f_bytes _ _ _ _ F) g Hg) as (B1 & B2 & B3 & B4). destruct H as [->|[->|[->| ->]]]; assumption.
Qed.
Lemma ipp_range b : 0 <= ipp_of b <= 100.
Proof. unfold ipp_of. assert (0 <= (b / 32) mod 4 < 4) by (apply Z.mod_pos_bound; lia). destruct (Z.to_nat ((b / 32) mod 4)) as [|[|[|[|n]]]]; cbn; lia. Qed.
Lemma TB1_text_some b : b <> 0 -> TB1_text (Some b) = lit "Vpp is connected; Vpp=" ++ dec (b mod 32 * 1000) ++ lit "mV; Ipp=" ++ dec (ipp_of b) ++ lit "mA".
Proof. intros H. destruct b; [congruence|reflexivity|reflexivity]. Qed.
Lemma TB1_text_ok ts t0 gs x str : facts ts t0 gs x -> str <> [] ->
  exists new, TBi_get_string x 1 str = Ret (true, new) /\ shown str new (TB1_text (byte_of gB 1 gs)).
Proof.
  intros F Hs. unfold TBi_get_string. cbn [Nat.ltb Nat.leb orb Nat.eqb]. destruct (f_present _ _ _ _ F 1%nat ltac:(lia)) as (_ & -> & _).
  destruct (f_more _ _ _ _ F) as (_ & M & _). unfold TB1_ok in M. destruct (byte_of gB 1 gs) as [b|]; cbn [is_some andb].
  - destruct (M b eq_refl) as (-> & C). destruct (Z.eqb_spec b 0) as [->|N]; cbn [negb].
    + apply tell_shown; [exact Hs|litnz].
    + destruct (C N) as (-> & ->). rewrite TB1_text_some by exact N. pose proof (ipp_range b). assert (0 <= b mod 32 < 32) by (apply Z.mod_pos_bound; lia).
      rewrite !dec_eq by lia. apply tell_shown; [exact Hs|]. nzt.
  - apply tell_shown; [exact Hs|litnz].
Qed.
Lemma TB2_text_ok ts t0 gs x str : facts ts t0 gs x -> str <> [] ->
  exists new, TBi_get_string x 2 str = Ret (true, new) /\ shown str new (TB2_text (byte_of gB 1 gs) (byte_of gB 2 gs)).
Proof.
  intros F Hs. unfold TBi_get_string. cbn [Nat.ltb Nat.leb orb Nat.eqb]. destruct (f_present _ _ _ _ F 1%nat ltac:(lia)) as (_ & -> & _). destruct (f_present _ _ _ _ F 2%nat ltac:(lia)) as (_ & -> & _).
  destruct (f_more _ _ _ _ F) as (_ & _ & _ & M & _). unfold TB2_ok in M.
  pose proof (fun b => byte_is _ _ _ _ gB 2 b F ltac:(auto)) as Bb.
  destruct (byte_of gB 1 gs) as [b1|]; cbn [is_some andb TB2_text]; [|apply tell_shown; [exact Hs|litnz]].
  destruct (byte_of gB 2 gs) as [b2|]; cbn [is_some andb]; [|apply tell_shown; [exact Hs|litnz]].
  destruct (M b2 eq_refl) as (-> & ->). specialize (Bb b2 eq_refl). unfold is_byte in Bb. rewrite dec_eq by lia. apply tell_shown; [exact Hs|nzt].
Qed.
Lemma facts_timing ts t0 gs x : facts ts t0 gs x -> exists Fi Di, is_rate gs Fi Di /\ p_Fi (i_params x) = Fi /\ p_Di (i_params x) = Di /\
    i_GT x = guard_time gs /\ i_CGT x = char_guard_time gs /\ i_WT x = waiting_time gs Di /\
    (one_T1 gs -> i_CWT x = char_waiting_time gs /\ p_IFSI (i_params x) = par_IFSI gs /\ p_edc (i_params x) = par_EDC gs /\
      (2 ^ (par_TB gs / 16) * Di <= 12026 -> i_BWT x = block_waiting_time gs Fi Di)).
Proof.
  intros F. apply timing; [apply F|apply F|apply F|apply F|apply F| |]; intros c; apply (byte_is _ _ _ _ gC _ c F); auto.
Qed.
Lemma rate_unique gs F D F' D' : is_rate gs F D -> is_rate gs F' D' -> F' = F /\ D' = D.
Proof.
  intros ((fm & A) & B) ((fm' & A') & B'). apply (assoc_in _ _ nodup7) in A. apply (assoc_in _ _ nodup7) in A'. apply (assoc_in _ _ nodup8) in B. apply (assoc_in _ _ nodup8) in B'.
  split; congruence.
Qed.
Lemma TC1_text_ok ts t0 gs x str : facts ts t0 gs x -> str <> [] ->
  exists new, TCi_get_string x 1 str = Ret (true, new) /\ shown str new (lit "N=" ++ dec (par_N gs) ++ lit "; GT=" ++ dec (guard_time gs)).
Proof.
  intros F Hs. unfold TCi_get_string. cbn [Nat.ltb Nat.leb orb Nat.eqb]. destruct (facts_timing _ _ _ _ F) as (Fi & Di & _ & _ & _ & -> & _).
  destruct (f_params _ _ _ _ F) as (_ & -> & _).
  assert (N : 0 <= par_N gs < 256). { unfold par_N. destruct (byte_of gC 1 gs) eqn:E; cbn [dflt]; [apply (byte_is _ _ _ _ gC 1 z F); auto|lia]. }
  assert (G : 0 <= guard_time gs < 300) by (unfold guard_time; destruct (par_N gs =? 255); [destruct (par_T gs =? 0)|]; lia).
  rewrite !dec_eq by lia. apply tell_shown; [exact Hs|nzt].
Qed.
Lemma TC2_text_ok ts t0 gs x str Fi Di : facts ts t0 gs x -> is_rate gs Fi Di -> str <> [] ->
  exists new, TCi_get_string x 2 str = Ret (true, new) /\ shown str new (lit "WI=" ++ dec (par_WI gs) ++ lit "; WT=" ++ dec (waiting_time gs Di)).
Proof.
  intros F R Hs. unfold TCi_get_string. cbn [Nat.ltb Nat.leb orb Nat.eqb]. destruct (facts_timing _ _ _ _ F) as (Fi' & Di' & R' & _ & _ & _ & _ & -> & _).
  destruct (rate_unique _ _ _ _ _ R R') as (-> & ->).
  destruct (f_params _ _ _ _ F) as (_ & _ & _ & -> & _). destruct R as (_ & R). apply table8_range in R.
  assert (N : 0 <= par_WI gs < 256). { unfold par_WI. destruct (byte_of gC 2 gs) eqn:E; cbn [dflt]; [apply (byte_is _ _ _ _ gC 2 z F); auto|lia]. }
  assert (G : 0 <= waiting_time gs Di < 10000000000) by (unfold waiting_time; nia).
  rewrite !dec_eq by lia. apply tell_shown; [exact Hs|nzt].
Qed.

(** ** The interface bytes for i > 2 *)
Lemma last_unique f t g a c : (forall a' g1 b g2 c', a ++ (t, g) :: c = a' ++ (t, g1) :: b ++ (t, g2) :: c' -> False) -> last_for f t (a ++ (t, g) :: c) = f g.
Proof.
  assert (Q : forall l, (forall g', ~ In (t, g') l) -> last_for f t l = None).
  { clear. induction l as [|(u, h) l IH]; intros H; cbn [last_for]; [reflexivity|]. rewrite IH by (intros g' I; apply (H g'); right; exact I).
    destruct (Z.eqb_spec u t) as [->|]; [exfalso; apply (H h); left; reflexivity|reflexivity]. }
  induction a as [|(u, h) a IH]; intros H; cbn [app last_for].
  - rewrite Q; [rewrite Z.eqb_refl; reflexivity|]. intros g' I. apply in_split in I as (l1 & l2 & ->). apply (H [] g l1 g' l2). reflexivity.
  - assert (u <> t) by (intros ->; apply (H [] h a g c); reflexivity).
    rewrite IH; [|intros a' g1 b g2 c' E; apply (H ((u, h) :: a') g1 b g2 c'); cbn [app]; rewrite E; reflexivity].
    destruct (Z.eqb_spec u t); [congruence|]. destruct (f g); reflexivity.
Qed.
Lemma tagged_nth n y gs : visit n y gs -> forall k g, nth_error gs k = Some g ->
  exists t, (match k with O => Some y | S j => match nth_error gs j with Some h => gD h | None => None end end) = Some t /\ exists a c, tagged (Some y) gs = a ++ (prot t, g) :: c.
Proof.
  induction 1 as [y|n y g M D|n y g t gs M D V IH]; intros k h Hk.
  - destruct k; discriminate.
  - destruct k as [|[|k]]; try discriminate. injection Hk as <-. exists y. split; [reflexivity|]. exists [], (tagged (gD g) []). reflexivity.
  - destruct k as [|k]; [injection Hk as <-; exists y; split; [reflexivity|]; exists [], (tagged (gD g) gs); reflexivity|].
    cbn [nth_error] in Hk. destruct (IH k h Hk) as (u & Eu & a & c & Et). exists u. split.
    { cbn [nth_error]. destruct k as [|k]; cbn [nth_error]; [congruence|exact Eu]. }
    exists ((prot y, g) :: a), c. cbn [tagged]. rewrite D, Et. reflexivity.
Qed.
Lemma specific_nth n y gs i g : visit n y gs -> (3 <= i)%nat -> nth_error gs (i - 1) = Some g ->
  exists t a c, byte_of gD (i - 1) gs = Some t /\ specific gs = a ++ (prot t, g) :: c.
Proof.
  intros V Hi Hg. inversion V as [|? ? g1 M1 D1|? ? g1 t1 gs1 M1 D1 V1]; subst; [destruct (i - 1)%nat eqn:E; [lia|discriminate]| |].
  { destruct (i - 1)%nat as [|[|k]] eqn:E; [lia| |]; discriminate. }
  inversion V1 as [|? ? g2 M2 D2|? ? g2 t2 gs2 M2 D2 V2]; subst.
  { destruct (i - 1)%nat as [|[|[|k]]] eqn:E; [lia| | |]; try discriminate; lia. }
  { destruct (i - 1)%nat as [|[|[|k]]] eqn:E; [lia| | |]; try discriminate; lia. }
  destruct i as [|[|[|k]]]; try lia. cbn [Nat.sub] in Hg. change (nth_error gs2 k = Some g) in Hg.
  destruct (tagged_nth _ _ _ V2 k g Hg) as (t & Et & a & c & Es). exists t, a, c. split.
  - unfold byte_of. cbn [Nat.sub]. destruct k as [|k]; cbn [nth_error]; [congruence|exact Et].
  - cbn [specific]. rewrite D2. exact Es.
Qed.
(** The byte [f] for i is the one that the parameters come from. *)
Lemma ith_last f t ts t0 gs x i b : facts ts t0 gs x -> (3 <= i)%nat -> byte_of f i gs = Some b -> (forall y, byte_of gD (i - 1) gs = Some y -> prot y = t) -> single t gs ->
  last_for f t (specific gs) = Some b.
Proof.
  intros F Hi Hb Ht S. unfold byte_of in Hb. destruct (nth_error gs (i - 1)) as [g|] eqn:Eg; [|discriminate].
  destruct (specific_nth _ _ _ i g (f_visit _ _ _ _ F) Hi Eg) as (y & a & c & Ey & Es). specialize (Ht y Ey). rewrite Ht in Es.
  rewrite Es. rewrite last_unique; [exact Hb|]. intros a' g1 b' g2 c' E. apply (S a' g1 b' g2 c'). rewrite Es. exact E.
Qed.
Lemma i34 i : (3 <= i <= 4)%nat -> ((i <? 1) || (4 <? i))%nat = false /\ (i =? 1)%nat = false /\ (i =? 2)%nat = false.
Proof. intros H. destruct i as [|[|[|[|[|i]]]]]; auto; lia. Qed.
Definition indicated (i : nat) (gs : list group) : Z := prot (dflt (byte_of gD (i - 1) gs) 0).
Lemma has_TD ts t0 gs x f i b : facts ts t0 gs x -> (3 <= i)%nat -> byte_of f i gs = Some b -> exists y, byte_of gD (i - 1) gs = Some y.
Proof.
  intros F Hi Hb. unfold byte_of in Hb. destruct (nth_error gs (i - 1)) as [g|] eqn:Eg; [|discriminate].
  destruct (specific_nth _ _ _ i g (f_visit _ _ _ _ F) Hi Eg) as (y & a & c & Ey & Es). eauto.
Qed.
Lemma TD_prot ts t0 gs x i y : facts ts t0 gs x -> (1 <= i)%nat -> byte_of gD i gs = Some y -> TD_protocol i x = Ret (Some (prot y)).
Proof. intros F Hi Hy. unfold TD_protocol. destruct (f_deref _ _ _ _ F i Hi) as (_ & _ & _ & ->). rewrite Hy. cbn [bind]. rewrite land15. reflexivity. Qed.
Lemma prot_cases ts t0 gs x i y : facts ts t0 gs x -> (2 <= i)%nat -> byte_of gD i gs = Some y -> prot y = 0 \/ prot y = 1 \/ prot y = 15.
Proof. intros F Hi Hy. destruct (f_valid _ _ _ _ F) as (_ & _ & _ & _ & _ & V & _). exact (V i y Hi Hy). Qed.
Lemma class_bits b : is_byte b ->
  negb (Z.land (b mod 64) 1 =? 0) = Z.testbit b 0 /\ negb (Z.land (b mod 64) 2 =? 0) = Z.testbit b 1 /\ negb (Z.land (b mod 64) 4 =? 0) = Z.testbit b 2 /\ 0 <= b / 64 < 4.
Proof.
  intros B. split; [|split; [|split]].
  - apply Bool.eqb_prop. revert b B. apply (byte_sweep (fun b => Bool.eqb (negb (Z.land (b mod 64) 1 =? 0)) (Z.testbit b 0))). vm_compute; reflexivity.
  - apply Bool.eqb_prop. revert b B. apply (byte_sweep (fun b => Bool.eqb (negb (Z.land (b mod 64) 2 =? 0)) (Z.testbit b 1))). vm_compute; reflexivity.
  - apply Bool.eqb_prop. revert b B. apply (byte_sweep (fun b => Bool.eqb (negb (Z.land (b mod 64) 4 =? 0)) (Z.testbit b 2))). vm_compute; reflexivity.
  - unfold is_byte in B. split; [apply Z.div_pos; lia|apply Z.div_lt_upper_bound; lia].
Qed.
Lemma TA_text_ok ts t0 gs x i str : facts ts t0 gs x -> (3 <= i <= 4)%nat -> (indicated i gs <> 0 -> single (indicated i gs) gs) -> str <> [] ->
  exists new, TAi_get_string x i str = Ret (true, new) /\ shown str new (TA_text (indicated i gs) (byte_of gA i gs)).
Proof.
  intros F Hi Sg Hs. unfold TAi_get_string. destruct (i34 i Hi) as (-> & -> & ->).
  destruct (f_present _ _ _ _ F i ltac:(lia)) as (-> & _). destruct (byte_of gA i gs) as [b|] eqn:Eb; cbn [is_some TA_text]; [|apply tell_shown; [exact Hs|litnz]].
  destruct (has_TD _ _ _ _ gA i b F ltac:(lia) Eb) as (y & Ey). rewrite (TD_prot _ _ _ _ (i - 1) y F ltac:(lia) Ey). cbn [bind].
  assert (Ei : indicated i gs = prot y) by (unfold indicated; rewrite Ey; reflexivity). rewrite Ei in *.
  assert (La : prot y <> 0 -> last_for gA (prot y) (specific gs) = Some b).
  { intros N. apply (ith_last gA (prot y) _ _ _ _ i b F); [lia|exact Eb| |apply Sg; exact N]. intros z Ez. congruence. }
  assert (Bb : is_byte b) by (apply (byte_is _ _ _ _ gA i b F); auto).
  destruct (prot_cases _ _ _ _ (i - 1) y F ltac:(lia) Ey) as [E0|[E1|E15]].
  - rewrite E0. cbn [Z.eqb]. apply tell_shown; [exact Hs|litnz].
  - rewrite E1. change (1 =? 15) with false. change (1 =? 1) with true. cbv iota.
    destruct (f_params _ _ _ _ F) as (_ & _ & _ & _ & P & _). rewrite P. rewrite E1 in La. rewrite La by lia. cbn [dflt]. unfold is_byte in Bb. rewrite dec_eq by lia. apply tell_shown; [exact Hs|nzt].
  - rewrite E15. change (15 =? 15) with true. cbv iota. destruct (f_more _ _ _ _ F) as (_ & _ & _ & _ & C1 & C2 & _). rewrite C1, C2. rewrite E15 in La. rewrite La by lia.
    destruct (class_bits b Bb) as (-> & -> & -> & R).
    set (stop := if b / 64 =? 0 then _ else _).
    assert (Est : stop = lit (nth (Z.to_nat (b / 64)) ["Not supported"; "State L"; "State H"; "No preference"] "")%string).
    { unfold stop. assert (C : b / 64 = 0 \/ b / 64 = 1 \/ b / 64 = 2 \/ b / 64 = 3) by lia. destruct C as [->|[->|[->| ->]]]; reflexivity. }
    assert (Nst : nz stop) by (unfold stop; destruct (b / 64 =? 0); [litnz|]; destruct (b / 64 =? 1); [litnz|]; destruct (b / 64 =? 2); [litnz|]; destruct (b / 64 =? 3); [litnz|constructor]).
    rewrite Est in *. set (pieces := _ :: _).
    assert (N : Forall nz pieces).
    { constructor; [apply nz_app; [litnz|apply nz_app; [exact Nst|litnz]]|]. apply commas_nz; [litnz|constructor|]. repeat (constructor; [cbn [snd]; litnz|]). constructor. }
    destruct (write_all_0 pieces str Hs ltac:(discriminate) N) as (ok & r & new & -> & S & _). cbn [bind]. exists new. split; [reflexivity|].
    replace (List.concat pieces) with (lit "Clock stop: " ++ lit (nth (Z.to_nat (b / 64)) ["Not supported"; "State L"; "State H"; "No preference"] "")%string ++ lit "; Class: " ++
      join ", " ((if Z.testbit b 0 then [lit "A (5V)"] else []) ++ (if Z.testbit b 1 then [lit "B (3V)"] else []) ++ (if Z.testbit b 2 then [lit "C (1.8V)"] else []))) in S; [exact S|].
    unfold pieces. cbn [List.concat]. rewrite commas_join. rewrite <- !app_assoc. do 3 f_equal. f_equal. unfold some_of. cbn [flat_map fst snd app]. rewrite app_nil_r. reflexivity.
Qed.
Lemma TB_text_ok ts t0 gs x i str Fi Di : facts ts t0 gs x -> (3 <= i <= 4)%nat -> (indicated i gs <> 0 -> single (indicated i gs) gs) -> is_rate gs Fi Di ->
  (indicated i gs = 1 -> forall b, byte_of gB i gs = Some b -> 2 ^ (b / 16) * Di <= 12026) -> str <> [] ->
  exists new, TBi_get_string x i str = Ret (true, new) /\ shown str new (TB_text (indicated i gs) (byte_of gB i gs) Fi Di).
Proof.
  intros F Hi Sg R Ov Hs. unfold TBi_get_string. destruct (i34 i Hi) as (-> & -> & ->).
  destruct (f_present _ _ _ _ F i ltac:(lia)) as (_ & -> & _). destruct (byte_of gB i gs) as [b|] eqn:Eb; cbn [is_some TB_text]; [|apply tell_shown; [exact Hs|litnz]].
  destruct (has_TD _ _ _ _ gB i b F ltac:(lia) Eb) as (y & Ey). rewrite (TD_prot _ _ _ _ (i - 1) y F ltac:(lia) Ey). cbn [bind].
  assert (Ei : indicated i gs = prot y) by (unfold indicated; rewrite Ey; reflexivity). rewrite Ei in *.
  assert (La : prot y <> 0 -> last_for gB (prot y) (specific gs) = Some b).
  { intros N. apply (ith_last gB (prot y) _ _ _ _ i b F); [lia|exact Eb| |apply Sg; exact N]. intros z Ez. congruence. }
  assert (Bb : is_byte b) by (apply (byte_is _ _ _ _ gB i b F); auto).
  destruct (prot_cases _ _ _ _ (i - 1) y F ltac:(lia) Ey) as [E0|[E1|E15]].
  - rewrite E0. cbn [Z.eqb]. apply tell_shown; [exact Hs|litnz].
  - rewrite E1 in *. change (1 =? 15) with false. change (1 =? 1) with true. cbv iota. specialize (La ltac:(lia)). specialize (Ov eq_refl b eq_refl). specialize (Sg ltac:(lia)).
    destruct (facts_timing _ _ _ _ F) as (Fi' & Di' & R' & _ & _ & _ & _ & _ & T). destruct (rate_unique _ _ _ _ _ R R') as (-> & ->).
    assert (O : one_T1 gs) by (intros a t1 c t2 d E; exact (Sg a t1 c t2 d E)).
    assert (Et : par_TB gs = b) by (unfold par_TB; rewrite <- (first_last gB _ O), La; reflexivity).
    destruct (par_TB_range gs (f_valid _ _ _ _ F) (f_bytes _ _ _ _ F)) as (R1 & R2). rewrite Et in R1, R2.
    destruct (T O) as (-> & _ & _ & Tb). rewrite Et in Tb. rewrite (Tb Ov). unfold char_waiting_time, block_waiting_time. rewrite Et.
    destruct R as ((fm & R7) & R8). apply table7_range in R7. apply table8_range in R8.
    assert (P1 : 2 ^ (b mod 16) <= 2 ^ 15) by (apply Z.pow_le_mono_r; lia). assert (0 < 2 ^ (b mod 16)) by (apply Z.pow_pos_nonneg; lia). change (2 ^ 15) with 32768 in P1.
    assert (P2 : 0 < 2 ^ (b / 16)) by (apply Z.pow_pos_nonneg; lia).
    assert (Q : 0 <= 2 ^ (b / 16) * 960 * 372 * Di / Fi <= 4294967295).
    { split; [apply Z.div_pos; nia|]. apply Z.div_le_upper_bound; [lia|]. nia. }
    rewrite !dec_eq by lia. apply tell_shown; [exact Hs|nzt].
  - rewrite E15 in *. change (15 =? 15) with true. cbv iota. destruct (f_more _ _ _ _ F) as (_ & _ & _ & _ & _ & _ & ->). rewrite La by lia.
    unfold is_byte in Bb. destruct (Z.eqb_spec b 0) as [->|N]; cbn [Z.eqb]; [apply tell_shown; [exact Hs|litnz]|].
    assert (E : (b / 128 =? 0) = (b <? 128)).
    { destruct (Z.eqb_spec (b / 128) 0) as [Ed|Nd]; destruct (Z.ltb_spec b 128) as [L|L]; auto; exfalso; [|apply Nd, Z.div_small; lia].
      assert (1 <= b / 128) by (apply Z.div_le_lower_bound; lia). lia. }
    rewrite E. destruct (b <? 128); apply tell_shown; first [exact Hs|litnz].
Qed.
Lemma TC_text_ok ts t0 gs x i str : facts ts t0 gs x -> (3 <= i <= 4)%nat -> (indicated i gs = 1 -> single 1 gs) -> str <> [] ->
  exists new, TCi_get_string x i str = Ret (true, new) /\ shown str new (TC_text (indicated i gs) (byte_of gC i gs)).
Proof.
  intros F Hi Sg Hs. unfold TCi_get_string. destruct (i34 i Hi) as (-> & -> & ->).
  destruct (f_present _ _ _ _ F i ltac:(lia)) as (_ & _ & -> & _). destruct (byte_of gC i gs) as [b|] eqn:Eb; cbn [is_some TC_text]; [|apply tell_shown; [exact Hs|litnz]].
  destruct (has_TD _ _ _ _ gC i b F ltac:(lia) Eb) as (y & Ey). rewrite (TD_prot _ _ _ _ (i - 1) y F ltac:(lia) Ey). cbn [bind].
  assert (Ei : indicated i gs = prot y) by (unfold indicated; rewrite Ey; reflexivity). rewrite Ei in *.
  destruct (Z.eqb_spec (prot y) 1) as [E1|N1]; [|apply tell_shown; [exact Hs|litnz]].
  assert (La : last_for gC 1 (specific gs) = Some b).
  { apply (ith_last gC 1 _ _ _ _ i b F); [lia|exact Eb| |apply Sg; exact E1]. intros z Ez. congruence. }
  destruct (f_params _ _ _ _ F) as (_ & _ & _ & _ & _ & _ & _ & ->). rewrite La. cbn [dflt]. rewrite Z.bit0_odd, Zmod_odd. destruct (Z.odd b); cbn [Z.eqb]; apply tell_shown; first [exact Hs|litnz].
Qed.
Lemma T1_ok ts t0 gs x hist : facts ts t0 gs x -> i_T1 x = hd 0 hist -> Zlen hist = t0 mod 16 -> bytes hist ->
  T1_get_string x = match hist with [] => None | b :: _ => Some (category_text b) end.
Proof.
  intros F T L B. unfold T1_get_string. rewrite (f_K _ _ _ _ F), <- L, T. unfold Zlen. destruct hist as [|b l]; [reflexivity|]. cbn [List.length hd].
  destruct (Z.eqb_spec (Z.of_nat (S (length l))) 0); [lia|]. f_equal. unfold category_text.
  destruct (b =? 0); [reflexivity|]. destruct (b =? 16); [reflexivity|]. destruct (Z.eqb_spec b 128) as [|N]; [reflexivity|].
  apply Forall_inv in B. unfold is_byte in B.
  assert (E : ((0x80 <? b) && (b <=? 0x8F))%bool = (b / 16 =? 8)); [|rewrite E; destruct (b / 16 =? 8); reflexivity].
  destruct (Z.eqb_spec (b / 16) 8) as [E8|E8]; destruct (Z.ltb_spec 0x80 b) as [A|A]; destruct (Z.leb_spec b 0x8F) as [A'|A']; cbn [andb]; auto; exfalso; Z.div_mod_to_equations; lia.
Qed.

(** ** Every accepted ATR, every buffer *)
Definition fine (str : list Z) (ok : bool) (m : out (bool * list Z)) : Prop :=
  exists new, m = Ret (ok, new) /\ length new = length str /\ (ok = true -> str <> [] -> exists s, cstring new = Some s).
Lemma has_nul l : In 0 l -> exists s, cstring l = Some s.
Proof.
  induction l as [|c l IH]; intros I; [destruct I|]. cbn [cstring]. destruct (Z.eqb_spec c 0); [eauto|]. destruct I as [->|I]; [congruence|].
  destruct (IH I) as (s & ->). eauto.
Qed.
Lemma snprintf_any buf o n s : (o + n <= length buf)%nat -> exists new, snprintf buf o n s = Ret new /\ length new = length buf /\ (n <> 0%nat -> In 0 new).
Proof.
  intros H. unfold snprintf. destruct n as [|m]; [exists buf; repeat split; congruence|].
  assert (L : (length (firstn m s) <= m)%nat) by (rewrite firstn_length; lia).
  rewrite put_Ret by (rewrite app_length; cbn [List.length]; lia). eexists. split; [reflexivity|]. split.
  - rewrite !app_length, skipn_length, firstn_length, ?app_length. cbn [List.length]. lia.
  - intros _. rewrite !in_app_iff. right; left; right; left; reflexivity.
Qed.
Lemma tell_fine str s : fine str true (tell str s).
Proof.
  unfold tell. destruct (snprintf_any str 0 (length str) s ltac:(lia)) as (new & -> & L & N). cbn [bind]. exists new. split; [reflexivity|]. split; [exact L|].
  intros _ Hs. apply has_nul, N. destruct str; [congruence|discriminate].
Qed.
Lemma write_all_any pieces : forall str off, (off <= length str)%nat ->
  exists ok r new, write_all str off pieces = Ret (ok, r, new) /\ length new = length str /\ (In 0 str \/ pieces <> [] /\ (off < length str)%nat -> In 0 new) /\ (pieces = [] -> r = off).
Proof.
  induction pieces as [|p pieces IH]; intros str off L; cbn [write_all].
  - exists true, off, str. repeat split; auto. intros [H|(H & _)]; [exact H|congruence].
  - destruct (snprintf_any str off (length str - off) p ltac:(lia)) as (new & E & Ln & N). rewrite E. cbn [bind].
    assert (K : (off < length str)%nat -> In 0 new) by (intros; apply N; lia).
    destruct (Nat.leb_spec (length str - off) (length p)) as [Lp|Lp].
    + exists false, (off + length p)%nat, new. repeat split; auto; [|discriminate]. intros [H|(_ & H)]; [|auto].
      destruct (Nat.eq_dec off (length str)) as [Eo|Eo]; [|apply K; lia]. rewrite Eo, Nat.sub_diag in E. injection E as <-. exact H.
    + destruct (IH new (off + length p)%nat ltac:(lia)) as (ok & r & new' & -> & Ln' & N' & _). exists ok, r, new'. split; [reflexivity|]. split; [lia|]. split; [|discriminate].
      intros _. apply N'. left. apply K. lia.
Qed.
Lemma Yi_any x i str : exists r new, Yi_write_string x i str = Ret (r, new) /\ length new = length str /\ ((r < length str)%nat \/ (str <> [] -> In 0 new)).
Proof.
  unfold Yi_write_string. destruct ((i <? 1) || (4 <? i))%nat.
  - exists 0%nat, str. split; [reflexivity|]. split; [reflexivity|]. destruct str; [right; congruence|left; cbn; lia].
  - set (pieces := _ :: _). destruct (write_all_any pieces str 0 ltac:(lia)) as (ok & r & new & -> & L & N & _). cbn [bind]. exists r, new. split; [reflexivity|]. split; [exact L|].
    right. intros Hs. apply N. right. split; [discriminate|]. destruct str; [congruence|cbn; lia].
Qed.
Lemma T0_fine x str : fine str true (T0_get_string x str).
Proof.
  unfold T0_get_string. destruct (Yi_any x 1 str) as (r & new & -> & L & N). cbn [bind]. rewrite L.
  destruct (Nat.leb_spec (length str) r) as [Lr|Lr].
  - exists new. split; [reflexivity|]. split; [exact L|]. intros _ Hs. destruct N as [N|N]; [lia|]. apply has_nul, N, Hs.
  - destruct (snprintf_any new r (length str - r) (lit "; K=" ++ p_dec (i_K x)) ltac:(lia)) as (new' & -> & L' & N'). cbn [bind]. exists new'. split; [reflexivity|]. split; [lia|].
    intros _ _. apply has_nul, N'. lia.
Qed.
Definition in14 (i : nat) : bool := ((1 <=? i) && (i <=? 4))%nat.
Lemma in14_eq i : ((i <? 1) || (4 <? i))%nat = negb (in14 i).
Proof. unfold in14. destruct (Nat.ltb_spec i 1), (Nat.ltb_spec 4 i), (Nat.leb_spec 1 i), (Nat.leb_spec i 4); cbn; auto; lia. Qed.
Lemma none_fine str : fine str false (Ret (false, str)).
Proof. exists str. split; [reflexivity|]. split; [reflexivity|discriminate]. Qed.
Lemma TA_fine ts t0 gs x i str : facts ts t0 gs x -> fine str (in14 i) (TAi_get_string x i str).
Proof.
  intros F. unfold TAi_get_string. rewrite in14_eq. destruct (in14 i) eqn:E14; cbn [negb]; [|apply none_fine].
  destruct (Nat.eqb_spec i 1) as [->|N1].
  - destruct (ta1_facts _ _ _ _ F) as (V1 & V2). cbn zeta in *. apply table7_fmax in V1. apply table8_range in V2. unfold udiv.
    destruct (Z.eqb_spec (p_Di (i_params x)) 0); [lia|]. cbn [bind].
    assert (C : 0 < p_Fi (i_params x) / p_Di (i_params x)) by (apply Z.div_str_pos; lia).
    destruct (Z.eqb_spec (p_Fi (i_params x) / p_Di (i_params x)) 0); [lia|]. cbn [bind]. apply tell_fine.
  - destruct (Nat.eqb_spec i 2) as [->|N2]; [destruct (present t_A 2 x); apply tell_fine|].
    assert (Hi : (3 <= i <= 4)%nat) by (unfold in14 in E14; destruct (Nat.leb_spec 1 i), (Nat.leb_spec i 4); cbn in E14; try discriminate; lia).
    destruct (f_present _ _ _ _ F i ltac:(lia)) as (-> & _). destruct (byte_of gA i gs) as [b|] eqn:Eb; cbn [is_some]; [|apply tell_fine].
    destruct (has_TD _ _ _ _ gA i b F ltac:(lia) Eb) as (y & Ey). rewrite (TD_prot _ _ _ _ (i - 1) y F ltac:(lia) Ey). cbn [bind].
    destruct (prot y =? 15); [|destruct (prot y =? 1); apply tell_fine].
    set (pieces := _ :: _). destruct (write_all_any pieces str 0 ltac:(lia)) as (ok & r & new & -> & L & N & _). cbn [bind]. exists new. split; [reflexivity|]. split; [exact L|].
    intros _ Hs. apply has_nul, N. right. split; [discriminate|]. destruct str; [congruence|cbn; lia].
Qed.
Lemma TB_fine ts t0 gs x i str : facts ts t0 gs x -> fine str (in14 i) (TBi_get_string x i str).
Proof.
  intros F. unfold TBi_get_string. rewrite in14_eq. destruct (in14 i) eqn:E14; cbn [negb]; [|apply none_fine].
  destruct (Nat.eqb_spec i 1) as [->|N1]; [destruct (_ && _); apply tell_fine|].
  destruct (Nat.eqb_spec i 2) as [->|N2]; [destruct (_ && _ && _); apply tell_fine|].
  assert (Hi : (3 <= i <= 4)%nat) by (unfold in14 in E14; destruct (Nat.leb_spec 1 i), (Nat.leb_spec i 4); cbn in E14; try discriminate; lia).
  destruct (f_present _ _ _ _ F i ltac:(lia)) as (_ & -> & _). destruct (byte_of gB i gs) as [b|] eqn:Eb; cbn [is_some]; [|apply tell_fine].
  destruct (has_TD _ _ _ _ gB i b F ltac:(lia) Eb) as (y & Ey). rewrite (TD_prot _ _ _ _ (i - 1) y F ltac:(lia) Ey). cbn [bind].
  destruct (prot y =? 15); [|destruct (prot y =? 1); apply tell_fine].
  destruct (f_more _ _ _ _ F) as (_ & _ & _ & _ & _ & _ & ->).
  destruct (last_for gB 15 (specific gs)) as [c|]; [|apply tell_fine]. destruct (c =? 0); [apply tell_fine|]. destruct (c / 128 =? 0); apply tell_fine.
Qed.
Lemma TC_fine ts t0 gs x i str : facts ts t0 gs x -> fine str (in14 i) (TCi_get_string x i str).
Proof.
  intros F. unfold TCi_get_string. rewrite in14_eq. destruct (in14 i) eqn:E14; cbn [negb]; [|apply none_fine].
  destruct (Nat.eqb_spec i 1) as [->|N1]; [apply tell_fine|]. destruct (Nat.eqb_spec i 2) as [->|N2]; [apply tell_fine|].
  assert (Hi : (3 <= i <= 4)%nat) by (unfold in14 in E14; destruct (Nat.leb_spec 1 i), (Nat.leb_spec i 4); cbn in E14; try discriminate; lia).
  destruct (f_present _ _ _ _ F i ltac:(lia)) as (_ & _ & -> & _). destruct (byte_of gC i gs) as [b|] eqn:Eb; cbn [is_some]; [|apply tell_fine].
  destruct (has_TD _ _ _ _ gC i b F ltac:(lia) Eb) as (y & Ey). rewrite (TD_prot _ _ _ _ (i - 1) y F ltac:(lia) Ey). cbn [bind].
  destruct (prot y =? 1); [|apply tell_fine].
  destruct (f_params _ _ _ _ F) as (_ & _ & _ & _ & _ & _ & _ & ->). rewrite Zmod_odd. destruct (Z.odd _); cbn [Z.eqb]; apply tell_fine.
Qed.
Lemma TD_fine ts t0 gs x i str : facts ts t0 gs x -> fine str (in14 i && is_some (byte_of gD i gs)) (TDi_get_string x i str).
Proof.
  intros F. unfold TDi_get_string. rewrite in14_eq. destruct (in14 i) eqn:E14; cbn [negb andb]; [|apply none_fine].
  assert (Hi : (1 <= i <= 4)%nat) by (unfold in14 in E14; destruct (Nat.leb_spec 1 i), (Nat.leb_spec i 4); cbn in E14; try discriminate; lia).
  destruct (f_present _ _ _ _ F i ltac:(lia)) as (_ & _ & _ & ->). destruct (byte_of gD i gs) as [b|] eqn:Eb; cbn [is_some negb]; [|apply none_fine].
  destruct (Yi_any x (i + 1) str) as (r & new & -> & L & N). cbn [bind]. rewrite L.
  destruct (Nat.leb_spec (length str) r) as [Lr|Lr].
  - exists new. split; [reflexivity|]. split; [exact L|]. intros _ Hs. destruct N as [N|N]; [lia|]. apply has_nul, N, Hs.
  - rewrite (TD_prot _ _ _ _ i b F ltac:(lia) Eb). cbn [bind].
    match goal with |- context [snprintf new r ?n ?s] => destruct (snprintf_any new r n s ltac:(lia)) as (new' & -> & L' & N') end.
    cbn [bind]. exists new'. split; [reflexivity|]. split; [lia|]. intros _ _. apply has_nul, N'. lia.
Qed.
