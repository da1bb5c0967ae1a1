(** Proofs about the messages told while applications are selected and started. *)
From Coq Require Import String.
From Verif Require Import Base BaseLemmas BerModel BerSpec BerProofs TlvListModel TlvModel TlvSpec TlvProofs DolModel DolSpec TtlModel FieldsModel AppModel AppSpec AppProofs
  TalModel TalSpec TalProofs StrModel StrSpec CapduModel CapduProofs FlagsModel FlagsSpec FlagsTexts PrintModel ToolsModel DirModel DirProofs RecSpec SelModel SelSpec.
Open Scope string_scope.
Open Scope Z_scope.
Open Scope list_scope.
Notation length := List.length.

(** ** In step with the model without messages *)
Section Step.
Context {T : Type} (x : transport T) (junk : list Z).
Lemma find_silent fuel : forall s aids exact apps n, silent (find_loop_n x junk fuel s aids exact apps n) = find_loop x junk fuel s aids exact apps.
Proof.
  unfold silent. induction fuel as [|fuel IH]; intros; [reflexivity|]. cbn [find_loop_n find_loop]. destruct aids as [|aid rest]; [reflexivity|].
  destruct (sub (f_val aid) 0 (Z.to_nat (f_len aid))) as [name| |]; cbn [bind]; try reflexivity. cbv zeta.
  destruct (if exact then x_select x s name else x_next x s name) as [a| |]; cbn [bind]; try reflexivity.
  destruct (negb (n_ret a =? 0)); [reflexivity|]. destruct (exact && (n_sw a =? 0x6A81))%bool; [reflexivity|].
  destruct (negb (n_sw a =? 0x9000) && negb (n_sw a =? 0x6283))%bool; [apply IH|].
  destruct (app_create_from_fci junk (n_data a)) as [[b|]| |]; cbn [bind]; try reflexivity; [|apply IH].
  destruct (f_len aid =? f_len (a_aid b)); [destruct (n_sw a =? 0x9000); apply IH|]. destruct (f_flags aid =? 1); [destruct (n_sw a =? 0x9000); apply IH|apply IH].
Qed.
Lemma select_silent s aid : silent (select_app_n x junk s aid) = select_app x junk s aid.
Proof.
  unfold silent, select_app_n, select_app. destruct ((Zlen aid <? 5) || (16 <? Zlen aid))%bool; [reflexivity|]. cbv zeta.
  destruct (x_select x s aid) as [a| |]; cbn [bind]; try reflexivity. destruct (negb (n_ret a =? 0)); [reflexivity|].
  destruct (negb (n_sw a =? 0x9000)).
  { destruct (n_sw a =? 0x6A81); [reflexivity|]. destruct (n_sw a =? 0x6A82); [reflexivity|]. destruct (n_sw a =? 0x6283); reflexivity. }
  destruct (app_create_from_fci junk (n_data a)) as [[b|]| |]; cbn [bind]; try reflexivity. destruct (negb (f_len (a_aid b) =? Zlen aid)); [reflexivity|].
  destruct (mem_equal (f_val (a_aid b)) aid (length aid)) as [[|]| |]; reflexivity.
Qed.
Lemma gpo_silent s data l : silent (gpo_n x s data l) = get_processing_options x s data l.
Proof.
  unfold silent, gpo_n, get_processing_options. destruct (match data with Some d => ((Zlen d <? 2) || (255 <? Zlen d))%bool | None => false end); [reflexivity|]. cbv zeta.
  destruct (x_gpo x s data) as [a| |]; cbn [bind]; try reflexivity. destruct (negb (n_ret a =? 0)); [reflexivity|].
  destruct (negb (n_sw a =? 0x9000)); [destruct (n_sw a =? 0x6985); reflexivity|].
  destruct (ber_decode (n_data a)) as [[r t]| |]; cbn [bind]; try reflexivity. destruct (r <=? 0); [reflexivity|]. destruct t as [t|]; [|reflexivity].
  destruct (b_tag t =? 0x80).
  { destruct ((b_len t <? 6) || negb (Z.land (u32 (b_len t - 2)) 3 =? 0))%bool; [reflexivity|].
    destruct (sub (b_val t) 0 2) as [v1| |]; cbn [bind]; try reflexivity. destruct (sub (b_val t) 2 (Z.to_nat (b_len t - 2))) as [v2| |]; reflexivity. }
  assert (F : forall g n, (let* (v, _) := match find_tag 0x82 g with
      | None => Ret (TAL_GPO_FIELD_NOT_FOUND, l, GNull, GNull, n_st a, n ++ [Err (lit "AIP not found in GPO response")])
      | Some aip => match find_tag 0x94 g with
        | None => Ret (TAL_GPO_FIELD_NOT_FOUND, l, GFreed, GNull, n_st a, n ++ [Err (lit "AFL not found in GPO response")])
        | Some afl => Ret (0, l ++ g, GLive aip, GLive afl, n_st a, n) end end in Ret v) =
    match find_tag 0x82 g with
      | None => Ret (TAL_GPO_FIELD_NOT_FOUND, l, GNull, GNull, n_st a)
      | Some aip => match find_tag 0x94 g with
        | None => Ret (TAL_GPO_FIELD_NOT_FOUND, l, GFreed, GNull, n_st a)
        | Some afl => Ret (0, l ++ g, GLive aip, GLive afl, n_st a) end end).
  { intros g n. destruct (find_tag 0x82 g); [|reflexivity]. destruct (find_tag 0x94 g); reflexivity. }
  destruct (b_tag t =? 0x77); [|cbn [bind]; apply F].
  destruct (tlv_parse (b_val t) []) as [[r1 g]| |]; cbn [bind]; try reflexivity. destruct (r1 <? 0); [reflexivity|]. destruct (0 <? r1); [reflexivity|]. apply F.
Qed.
End Step.

(** ** Texts *)
Lemma word_hex v : 0 <= v < 65536 -> p_04X v = hex_text [v / 256; v mod 256] /\ status_text (p_04X v).
Proof.
  intros H. assert (A : is_byte (v / 256)) by (unfold is_byte; split; [apply Z.div_pos; lia|apply Z.div_lt_upper_bound; lia]).
  assert (B : is_byte (v mod 256)) by (unfold is_byte; apply Z.mod_pos_bound; lia).
  assert (E : p_04X v = hex_text [v / 256; v mod 256]).
  { unfold p_04X. rewrite <- hex_02X by (constructor; [exact A|constructor; [exact B|constructor]]). cbn [flat_map]. now rewrite app_nil_r. }
  split; [exact E|]. exists (v / 256), (v mod 256). auto.
Qed.
Lemma hexd_inj a b : 0 <= a < 16 -> 0 <= b < 16 -> hexd a = hexd b -> a = b.
Proof. intros Ha Hb. unfold hexd. destruct (Z.ltb_spec a 10), (Z.ltb_spec b 10); lia. Qed.
Lemma p_02X_inj a b : is_byte a -> is_byte b -> p_02X a = p_02X b -> a = b.
Proof.
  unfold is_byte. intros Ha Hb E. unfold p_02X in E.
  assert (E1 : hexd (a / 16) = hexd (b / 16)) by congruence. assert (E2 : hexd (a mod 16) = hexd (b mod 16)) by congruence.
  apply hexd_inj in E1; [|split; [apply Z.div_pos; lia|apply Z.div_lt_upper_bound; lia]..].
  apply hexd_inj in E2; [|apply Z.mod_pos_bound; lia..]. rewrite (Z.div_mod a 16), (Z.div_mod b 16) by lia. congruence.
Qed.
Lemma p_04X_inj v w : 0 <= v < 65536 -> 0 <= w < 65536 -> p_04X v = p_04X w -> v = w.
Proof.
  intros Hv Hw E. unfold p_04X in E. assert (E' : p_02X (v / 256) = p_02X (w / 256) /\ p_02X (v mod 256) = p_02X (w mod 256)).
  { unfold p_02X in *. cbn [app] in E. split; congruence. }
  destruct E' as (E1 & E2). apply p_02X_inj in E1; [|unfold is_byte; split; [apply Z.div_pos; lia|apply Z.div_lt_upper_bound; lia]..].
  apply p_02X_inj in E2; [|unfold is_byte; apply Z.mod_pos_bound; lia..]. rewrite (Z.div_mod v 256), (Z.div_mod w 256) by lia. congruence.
Qed.
Lemma other_status v w : 0 <= v < 65536 -> 0 <= w < 65536 -> v <> w -> p_04X v <> hex_text [w / 256; w mod 256].
Proof. intros Hv Hw N E. destruct (word_hex w Hw) as (F & _). rewrite <- F in E. apply p_04X_inj in E; auto. Qed.

(** ** The search *)
Section Told.
Context {T : Type} (x : transport T) (Wd : words x) (junk : list Z).
Lemma find_told fuel : forall s log aids exact apps n r apps' s' log' n', Forall wf_field aids ->
  find_loop_n (overheard x) junk fuel (s, log) aids exact apps n = Ret (r, apps', (s', log'), n') ->
  exists qs ls ns, log' = log ++ qs /\ apps' = apps ++ ls /\ n' = n ++ ns /\ search_told junk r qs ls ns /\
    Forall (fun q => exists f, In f aids /\ snd q = f_val f) qs.
Proof.
  induction fuel as [|fuel IH]; intros s log aids exact apps n r apps' s' log' n' Wa E; [discriminate|]. cbn [find_loop_n] in E.
  destruct aids as [|aid rest].
  { exists [], [], []. assert (r = 0 /\ apps' = apps /\ log' = log /\ n' = n) as (-> & -> & -> & ->) by (repeat split; congruence).
    rewrite !app_nil_r. repeat (split; [reflexivity|]). split; constructor. }
  pose proof (Forall_inv Wa) as (Lf & _). pose proof (Forall_inv_tail Wa) as Wr.
  rewrite Lf in E at 1. assert (Sb : sub (f_val aid) 0 (Z.to_nat (Zlen (f_val aid))) = Ret (f_val aid)).
  { unfold Zlen. rewrite Nat2Z.id. unfold sub. rewrite Nat.leb_refl. cbn [skipn]. now rewrite firstn_all. }
  rewrite Sb in E. cbn [bind] in E. cbv zeta in E. set (q := (exact, f_val aid)).
  change (Data (if exact then lit "SELECT application" else lit "SELECT next application") (f_val aid)) with (asked q) in E.
  assert (Ea : exists a0 : out (answer T), (if exact then x_select (overheard x) (s, log) (f_val aid) else x_next (overheard x) (s, log) (f_val aid)) =
      match a0 with Ret a => Ret (mkAns (n_ret a) (n_data a) (n_sw a) (n_st a, log ++ [q])) | UB => UB | NoFuel => NoFuel end /\
      (forall a, a0 = Ret a -> 0 <= n_sw a < 65536)).
  { destruct exact; cbn [overheard x_select x_next fst snd]; eexists; (split; [reflexivity|]); intros a Ha; apply Wd in Ha; exact Ha. }
  destruct Ea as (a0 & Ea & Sw). rewrite Ea in E. clear Ea. destruct a0 as [a| |]; [|discriminate|discriminate].
  specialize (Sw a eq_refl). cbn [bind n_ret n_data n_sw n_st] in E.
  assert (Hq : exists f, In f (aid :: rest) /\ snd q = f_val f) by (exists aid; split; [now left|reflexivity]).
  assert (Stop : forall m, told junk q r [] [asked q; m] -> r < 0 -> apps' = apps -> log' = log ++ [q] -> n' = (n ++ [asked q]) ++ [m] ->
    exists qs ls ns, log' = log ++ qs /\ apps' = apps ++ ls /\ n' = n ++ ns /\ search_told junk r qs ls ns /\ Forall (fun q => exists f, In f (aid :: rest) /\ snd q = f_val f) qs).
  { intros m Tm Ng -> -> ->. exists [q], [], [asked q; m]. rewrite app_nil_r, <- app_assoc. repeat (split; [reflexivity|]).
    split; [now apply st_stop|]. constructor; auto. }
  assert (More : forall aids2 exact2 l ms, (aids2 = rest \/ aids2 = aid :: rest) -> told junk q 0 l (asked q :: ms) ->
    find_loop_n (overheard x) junk fuel (n_st a, log ++ [q]) aids2 exact2 (apps ++ l) ((n ++ [asked q]) ++ ms) = Ret (r, apps', (s', log'), n') ->
    exists qs ls ns, log' = log ++ qs /\ apps' = apps ++ ls /\ n' = n ++ ns /\ search_told junk r qs ls ns /\ Forall (fun q => exists f, In f (aid :: rest) /\ snd q = f_val f) qs).
  { intros aids2 exact2 l ms Ha Tm E1.
    assert (Wa2 : Forall wf_field aids2) by (destruct Ha as [-> | ->]; assumption).
    destruct (IH _ _ _ _ _ _ _ _ _ _ _ Wa2 E1) as (qs & ls & ns & -> & -> & -> & St & Fq).
    exists (q :: qs), (l ++ ls), ((asked q :: ms) ++ ns). rewrite <- !app_assoc. repeat (split; [reflexivity|]). split; [now apply st_more|].
    constructor; [exact Hq|]. eapply Forall_impl; [|exact Fq]. intros q0 (f & If & Ef). exists f. split; [|exact Ef]. destruct Ha as [-> | ->]; [now right|exact If]. }
  destruct (negb (n_ret a =? 0)).
  { apply (Stop (Err (lit "TTL failure"))); try congruence; assert (r = TAL_TTL_FAILURE) as -> by congruence; [apply to_ttl|reflexivity]. }
  destruct (exact && (n_sw a =? 0x6A81))%bool eqn:Eb.
  { apply andb_prop in Eb as (Ex & _). apply (Stop (Err (lit "Card blocked or SELECT not supported"))); try congruence; assert (r = TAL_CARD_BLOCKED) as -> by congruence; [apply to_blocked; exact Ex|reflexivity]. }
  destruct (Z.eqb_spec (n_sw a) 0x9000) as [S9|S9]; cbn [negb andb] in E.
  - destruct (app_create_from_fci junk (n_data a)) as [[b|]| |] eqn:Ec; cbn [bind] in E; try discriminate.
    2:{ apply (More rest true [] [Data (lit "FCI") (n_data a)]); auto; [now apply to_invalid|now rewrite app_nil_r]. }
    destruct (Z.eqb_spec (f_len aid) (f_len (a_aid b))) as [El|El].
    + apply (More rest true [b] [Data (lit "FCI") (n_data a); Info (lit "Application is supported: exact match")]); auto; [apply to_exact; [exact Ec|cbn [q snd]; congruence]|].
      rewrite <- E. rewrite <- !app_assoc. reflexivity.
    + assert (El' : Zlen (snd q) <> f_len (a_aid b)) by (cbn [q snd]; congruence). destruct (f_flags aid =? 1).
      * apply (More (aid :: rest) false [b] [Data (lit "FCI") (n_data a); Info (lit "Application is supported: partial match")]); auto; [now apply to_partial|].
        rewrite <- E. rewrite <- !app_assoc. reflexivity.
      * apply (More rest true [] [Data (lit "FCI") (n_data a); Info (lit "Application is not supported: partial match not allowed")]); auto; [eapply to_forbidden; eauto|].
        rewrite <- E. rewrite app_nil_r, <- !app_assoc. reflexivity.
  - destruct (Z.eqb_spec (n_sw a) 0x6283) as [S6|S6]; cbn [negb] in E.
    + destruct (app_create_from_fci junk (n_data a)) as [[b|]| |] eqn:Ec; cbn [bind] in E; try discriminate.
      2:{ apply (More rest true [] [Data (lit "FCI") (n_data a)]); auto; [now apply to_invalid|now rewrite app_nil_r]. }
      destruct (Z.eqb_spec (f_len aid) (f_len (a_aid b))) as [El|El].
      * apply (More rest true [] [Data (lit "FCI") (n_data a); Info (lit "Application is blocked")]); auto; [eapply to_off; eauto|].
        rewrite <- E. rewrite app_nil_r, <- !app_assoc. reflexivity.
      * assert (El' : Zlen (snd q) <> f_len (a_aid b)) by (cbn [q snd]; congruence). destruct (f_flags aid =? 1).
        { apply (More (aid :: rest) false [] [Data (lit "FCI") (n_data a); Info (lit "Application is blocked")]); auto; [eapply to_off; eauto|].
          rewrite <- E. rewrite app_nil_r, <- !app_assoc. reflexivity. }
        { apply (More rest true [] [Data (lit "FCI") (n_data a); Info (lit "Application is not supported: partial match not allowed")]); auto; [eapply to_forbidden; eauto|].
          rewrite <- E. rewrite app_nil_r, <- !app_assoc. reflexivity. }
    + destruct (Z.eqb_spec (n_sw a) 0x6A82) as [S2|S2].
      * apply (More rest true [] [Info (lit "Application not found")]); auto; [apply to_absent|]. now rewrite app_nil_r.
      * apply (More rest true [] [Err (lit "Unexpected SELECT status 0x" ++ p_04X (n_sw a))]); auto; [|now rewrite app_nil_r].
        apply to_status; [apply word_hex, Sw|exact (other_status _ 0x9000 Sw ltac:(lia) S9)|exact (other_status _ 0x6283 Sw ltac:(lia) S6)|exact (other_status _ 0x6A82 Sw ltac:(lia) S2)].
Qed.
End Told.

Lemma told_count junk q r l n : told junk q r l n -> length (filter supported_note n) = length l.
Proof.
  assert (A : supported_note (asked q) = false) by (destruct q as [[|] name]; vm_compute; reflexivity).
  intros []; cbn [filter]; rewrite A; reflexivity.
Qed.
Lemma search_count junk r qs ls ns : search_told junk r qs ls ns -> length (filter supported_note ns) = length ls.
Proof.
  induction 1 as [|r q n Ng Tn|r q l n qs ls ns Tn St IH]; [reflexivity|eapply told_count; exact Tn|].
  rewrite filter_app, !app_length, IH. f_equal. eapply told_count; exact Tn.
Qed.
