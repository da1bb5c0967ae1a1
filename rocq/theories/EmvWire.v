(** What a transaction sends to the card, through [ttl_transport] in APDU mode. *)
From Verif Require Import Base BaseLemmas BerModel BerSpec TlvListModel TlvModel DolModel DolSpec DolProofs TlvSpec TtlModel TtlSpec TtlProofs FieldsModel FieldsSpec FieldsProofs
  AppModel AppSpec AppProofs TalModel TalSpec TalProofs TalWire EmvModel EmvSpec EmvProofs.

Definition wire (C : list Z -> Prop) (l l' : list (list Z)) : Prop := exists g, l' = l ++ g /\ sent C g.
Lemma sent_app C g h : sent C g -> sent C h -> sent C (g ++ h).
Proof.
  induction 1 as [|cmd more rest Hc Hm _ IH]; intro H; [exact H|]. cbn [app]. rewrite <- app_assoc. constructor; auto.
Qed.
Lemma wire_refl C l : wire C l l.
Proof. exists []. split; [now rewrite app_nil_r|constructor]. Qed.
Lemma wire_trans C a b c : wire C a b -> wire C b c -> wire C a c.
Proof. intros (g & -> & G) (h & -> & H). exists (g ++ h). split; [now rewrite app_assoc|now apply sent_app]. Qed.
Lemma wire_one (C : list Z -> Prop) l cmd more : C cmd -> Forall (follow_up cmd) more -> wire C l (l ++ cmd :: more).
Proof.
  intros Hc Hm. exists (cmd :: more). split; [reflexivity|]. rewrite <- (app_nil_r more). constructor; auto. constructor.
Qed.

Section Wire.
Context {S : Type} (fuel : nat) (card : cardfn S) (tjunk : list Z).
Notation tr := (ttl_transport fuel (logged card) ModeApdu tjunk).

Lemma outb_len : 256 <= Zlen (repeat 0 (Z.to_nat RAPDU_DATA_MAX)).
Proof. unfold Zlen. rewrite repeat_length. vm_compute. discriminate. Qed.

Lemma select_log p2 st name a : is_byte p2 -> bytes name ->
  of_tres (ttl_select_gen fuel (logged card) ModeApdu tjunk p2 st name (repeat 0 (Z.to_nat RAPDU_DATA_MAX)) 0) = Ret a ->
  snd (n_st a) = snd st \/
  exists more, snd (n_st a) = snd st ++ select_cmd p2 name :: more /\ Forall (follow_up (select_cmd p2 name)) more.
Proof.
  intros Hp Hb E. apply of_tres_inv in E as (t & E & ->). destruct st as [s log]. cbn [snd].
  destruct (Z_lt_dec (Zlen name) 5) as [L|L]; [rewrite select_range in E by (auto using outb_len; lia); inv_ret E; auto|].
  destruct (Z_lt_dec 16 (Zlen name)) as [G|G]; [rewrite select_range in E by (auto using outb_len; lia); inv_ret E; auto|].
  right. unfold ttl_select_gen in E. pose proof outb_len as Ol.
  destruct (Nat.eqb_spec (length (repeat 0 (Z.to_nat RAPDU_DATA_MAX))) 0) as [e|_]; [unfold Zlen in Ol; lia|].
  destruct (Z.ltb_spec (Zlen (repeat 0 (Z.to_nat RAPDU_DATA_MAX))) RAPDU_DATA_MAX) as [e|_]; [unfold RAPDU_DATA_MAX in *; lia|].
  destruct ((Zlen name <? 5) || (16 <? Zlen name))%bool eqn:E1; [lia|].
  rewrite u8_id in E by lia. apply bind_Ret_inv in E as (t0 & Et & E). apply finish_card in E. rewrite E.
  refine (trx_log fuel card ModeApdu s log _ _ _ _ _ Et _ _); [rewrite repeat_length; unfold RAPDU_MAX; lia|].
  exists A4S. split; [auto|]. split.
  - apply (cmd_4s [0; 164; 4; p2] name 0); auto. lia.
  - repeat apply bytes_cons; unfold is_byte in *; try lia. apply bytes_app_intro; auto. apply bytes_one. unfold is_byte; lia.
Qed.

Lemma read_log st sfi rec a : is_byte rec -> x_read tr st sfi rec = Ret a -> wire read_record_cmd (snd st) (snd (n_st a)).
Proof.
  intros Hr E. destruct (Z_le_dec 1 sfi) as [L|L]; [destruct (Z_le_dec sfi 30) as [G|G]|].
  - apply x_read_sends in E as (g & -> & more & -> & F); auto. apply wire_one; auto. exists sfi, rec. unfold is_byte in Hr. cbn [fst snd]. repeat split; lia || auto.
  - apply of_tres_inv in E as (t & E & ->). rewrite read_record_range in E by (auto using outb_len; lia). inv_ret E. apply wire_refl.
  - apply of_tres_inv in E as (t & E & ->). rewrite read_record_range in E by (auto using outb_len; lia). inv_ret E. apply wire_refl.
Qed.

Lemma gpo_log st data a : (forall d, data = Some d -> bytes d /\ 2 <= Zlen d <= 255 /\ nth 0 d 0 = 0x83) ->
  x_gpo tr st data = Ret a ->
  let d := match data with Some d => d | None => [0x83; 0] end in
  let cmd := [0x80; 0xA8; 0; 0; Zlen d] ++ d ++ [0] in
  exists more, snd (n_st a) = snd st ++ cmd :: more /\ Forall (follow_up cmd) more.
Proof.
  intros Hd E. apply of_tres_inv in E as (t & H & ->). destruct st as [s log]. cbn [snd]. unfold ttl_gpo in H. pose proof outb_len as Ol.
  destruct (Nat.eqb_spec (length (repeat 0 (Z.to_nat RAPDU_DATA_MAX))) 0) as [e|_]; [unfold Zlen in Ol; lia|].
  destruct (Z.ltb_spec (Zlen (repeat 0 (Z.to_nat RAPDU_DATA_MAX))) RAPDU_DATA_MAX) as [e|_]; [unfold RAPDU_DATA_MAX in *; lia|].
  set (outb := repeat 0 (Z.to_nat RAPDU_DATA_MAX)) in *.
  assert (G : forall d, bytes d -> 2 <= Zlen d <= 255 ->
    (let* t := ttl_trx fuel (logged card) ModeApdu (s, log) ([0x80; 0xA8; 0; 0; u8 (Zlen d)] ++ d ++ [0]) tjunk
        (repeat 0 RAPDU_MAX) 0 in ttl_finish (-5) (-6) t outb) = Ret t ->
    exists more, snd (o_card t) = log ++ ([0x80; 0xA8; 0; 0; Zlen d] ++ d ++ [0]) :: more /\
      Forall (follow_up ([0x80; 0xA8; 0; 0; Zlen d] ++ d ++ [0])) more).
  { clear H. intros d Bd Ld H. rewrite u8_id in H by lia. apply bind_Ret_inv in H as (t0 & Et & E). apply finish_card in E. rewrite E.
    refine (trx_log fuel card ModeApdu s log _ _ _ _ _ Et _ _); [rewrite repeat_length; unfold RAPDU_MAX; lia|].
    exists A4S. split; [auto|]. split.
    - apply (cmd_4s [0x80; 0xA8; 0; 0] d 0); auto. lia.
    - repeat apply bytes_cons; unfold is_byte in *; try lia. apply bytes_app_intro; auto. apply bytes_one. unfold is_byte; lia. }
  destruct data as [d|].
  - destruct (Hd d eq_refl) as (Bd & Ld & H0).
    destruct ((Zlen d <? 2) || (255 <? Zlen d))%bool eqn:E1; [lia|].
    destruct d as [|d0 d]; [unfold Zlen in Ld; cbn in Ld; lia|]. cbn [nth] in H0. subst d0.
    change (rd (0x83 :: d) 0) with (Ret 0x83) in H. cbn [bind Z.eqb Pos.eqb negb] in H. now apply G.
  - cbn [bind] in H. apply G; auto; [repeat constructor; unfold is_byte; lia|unfold Zlen; cbn; lia].
Qed.

(** *** The candidate list *)
Lemma wire_weaken (C D : list Z -> Prop) l l' : (forall c, C c -> D c) -> wire C l l' -> wire D l l'.
Proof.
  intros CD (g & -> & G). exists g. split; [reflexivity|]. induction G; constructor; auto.
Qed.
Lemma wire_read names st sfi rec a : is_byte rec -> x_read tr st sfi rec = Ret a ->
  wire (candidate_cmd names) (snd st) (snd (n_st a)).
Proof. intros Hr E. eapply wire_weaken; [|eapply read_log; eauto]. intros c Hc. now left. Qed.
Lemma wire_select names p2 st name a : p2 = 0 \/ p2 = 2 -> bytes name -> (p2 = 0 /\ name = pse_name) \/ In name names ->
  of_tres (ttl_select_gen fuel (logged card) ModeApdu tjunk p2 st name (repeat 0 (Z.to_nat RAPDU_DATA_MAX)) 0) = Ret a ->
  wire (candidate_cmd names) (snd st) (snd (n_st a)).
Proof.
  intros Hp Hb Hn E. apply select_log in E; auto; [|unfold is_byte; lia].
  destruct E as [->|(more & -> & F)]; [apply wire_refl|]. apply wire_one; auto. unfold candidate_cmd. destruct Hn as [[-> ->]|Hn]; [auto|].
  right; right. eauto.
Qed.

Lemma u8_byte z : is_byte (u8 z).
Proof. unfold u8, is_byte. apply Z.mod_pos_bound. lia. Qed.

Lemma pse_loop_wire junk names f : forall st sfi rec pse supported apps r apps' st', is_byte rec ->
  pse_loop tr junk f st sfi rec pse supported apps = Ret (r, apps', st') ->
  wire (candidate_cmd names) (snd st) (snd st').
Proof.
  induction f as [|f IH]; intros st sfi rec pse supported apps r apps' st' Hr E; [discriminate|]. cbn [pse_loop] in E.
  apply bind_Ret_inv in E as (a & Ea & E). pose proof (wire_read names _ _ _ _ Hr Ea) as W.
  destruct (negb _); [inv_ret E; exact W|]. destruct (_ =? _); [inv_ret E; exact W|].
  destruct (negb _).
  - eapply wire_trans; [exact W|]. eapply IH; [|exact E]. apply u8_byte.
  - apply bind_Ret_inv in E as ([q ap] & _ & E). destruct (_ <? _); [inv_ret E; exact W|].
    eapply wire_trans; [exact W|]. eapply IH; [|exact E]. apply u8_byte.
Qed.

Lemma read_pse_wire junk names f st supported apps r apps' st' :
  read_pse tr junk f st supported apps = Ret (r, apps', st') -> wire (candidate_cmd names) (snd st) (snd st').
Proof.
  unfold read_pse. intros E. apply bind_Ret_inv in E as (a & Ea & E).
  assert (W : wire (candidate_cmd names) (snd st) (snd (n_st a))).
  { apply (wire_select names 0 st EMV_PSE a); auto. repeat constructor; unfold is_byte; lia. }
  repeat match type of E with (if ?b then _ else _) = _ => destruct b; [inv_ret E; exact W|] end.
  apply bind_Ret_inv in E as ([q pse] & _ & E). apply bind_Ret_inv in E as ([[r1 ap1] s1] & E1 & E). inv_ret E.
  destruct (_ <? _); [inv_ret E1; exact W|]. destruct (find_tag _ _) as [fd|]; [|inv_ret E1; exact W].
  destruct (negb _); [inv_ret E1; exact W|]. apply bind_Ret_inv in E1 as (sfi & _ & E1).
  eapply wire_trans; [exact W|]. eapply pse_loop_wire; [|exact E1]. unfold is_byte; lia.
Qed.

Lemma find_wire junk names f : forall st aids ex apps r apps' st', Forall wf_field aids -> incl (map f_val aids) names ->
  find_loop tr junk f st aids ex apps = Ret (r, apps', st') -> wire (candidate_cmd names) (snd st) (snd st').
Proof.
  induction f as [|f IH]; intros st aids ex apps r apps' st' Wf Inc E; [discriminate|]. cbn [find_loop] in E.
  destruct aids as [|aid rest]; [inv_ret E; apply wire_refl|].
  apply Forall_cons_iff in Wf as [Wa Wr]. rewrite wf_sub in E by auto. cbn [bind] in E.
  apply bind_Ret_inv in E as (a & Ea & E).
  assert (W : wire (candidate_cmd names) (snd st) (snd (n_st a))).
  { destruct Wa as (_ & Ba & _). assert (In (f_val aid) names) by (apply Inc; now left).
    destruct ex; [apply (wire_select names 0 st (f_val aid) a)|apply (wire_select names 2 st (f_val aid) a)]; auto. }
  assert (Ir : incl (map f_val rest) names) by (intros n Hn; apply Inc; now right).
  destruct (negb _); [inv_ret E; exact W|]. destruct (ex && _)%bool; [inv_ret E; exact W|].
  eapply wire_trans; [exact W|]. destruct (negb _ && _)%bool; [eapply IH; [| |exact E]; auto|].
  apply bind_Ret_inv in E as ([ap|] & _ & E); [|eapply IH; [| |exact E]; auto].
  destruct (_ =? _); [destruct (_ =? _); (eapply IH; [| |exact E]; auto)|].
  repeat match type of E with context [if ?b then _ else _] => destruct b end; (eapply IH; [| |exact E]; auto).
Qed.

Lemma build_wire junk f s log c apps r apps' s' log' : Forall wf_field (k_aids c) ->
  build_candidate_list tr junk f (s, log) c apps = Ret (r, apps', (s', log')) ->
  exists g, log' = log ++ g /\ sent (candidate_cmd (map f_val (k_aids c))) g.
Proof.
  intros Wf E. change (wire (candidate_cmd (map f_val (k_aids c))) log log'). unfold build_candidate_list in E.
  apply bind_Ret_inv in E as ([[r1 ap1] s1] & E1 & E). apply (read_pse_wire junk (map f_val (k_aids c))) in E1. cbn [snd] in E1.
  destruct (_ <? _); [inv_ret E; exact E1|]. apply bind_Ret_inv in E as ([[r2 ap2] s2] & E2 & E).
  assert (W : wire (candidate_cmd (map f_val (k_aids c))) log (snd s2)).
  { destruct ap1; [|inv_ret E2; exact E1]. eapply wire_trans; [exact E1|]. eapply find_wire; [exact Wf| |exact E2]. intros n Hn; exact Hn. }
  destruct (negb _); [inv_ret E; exact W|]. destruct ap2; inv_ret E; exact W.
Qed.

(** *** Final selection *)
Lemma select_wire junk s log c apps index r apps' c' s' log' : Forall (fun a => wf_field (a_aid a)) apps ->
  select_application tr junk (s, log) c apps index = Ret (r, apps', c', (s', log')) ->
  log' = log \/ exists a more, nth_error apps index = Some a /\ log' = log ++ select_cmd 0 (f_val (a_aid a)) :: more /\
    Forall (follow_up (select_cmd 0 (f_val (a_aid a)))) more.
Proof.
  intros Wf E. unfold select_application, remove_nth in E. destruct (nth_error apps index) as [a|] eqn:En; [|inv_ret E; auto].
  assert (Wa : wf_field (a_aid a)) by (rewrite Forall_forall in Wf; apply Wf; eapply nth_error_In; eauto).
  destruct (_ <? _); [inv_ret E; auto|]. rewrite wf_sub in E by auto. cbn [bind] in E.
  apply bind_Ret_inv in E as ([[tr_ sel] s1] & Es & E).
  assert (K : snd s1 = log \/ exists more, snd s1 = log ++ select_cmd 0 (f_val (a_aid a)) :: more /\
    Forall (follow_up (select_cmd 0 (f_val (a_aid a)))) more).
  { unfold select_app in Es. destruct (_ || _)%bool; [inv_ret Es; auto|]. apply bind_Ret_inv in Es as (n & En2 & Es).
    apply (select_log 0 (s, log)) in En2; [|unfold is_byte; lia|apply Wa]. cbn [snd] in En2.
    destruct (negb _); [inv_ret Es; exact En2|].
    repeat match type of Es with (if ?b then _ else _) = _ => destruct b; [inv_ret Es; exact En2|] end.
    destruct (negb _); [repeat match type of Es with (if ?b then _ else _) = _ => destruct b end; inv_ret Es; exact En2|].
    apply bind_Ret_inv in Es as ([ap|] & _ & Es); [|inv_ret Es; exact En2].
    destruct (negb _); [inv_ret Es; exact En2|]. apply bind_Ret_inv in Es as (sm & _ & Es). destruct (negb _); inv_ret Es; exact En2. }
  assert (Ef : s1 = (s', log')) by (repeat match type of E with (if ?b then _ else _) = _ => destruct b end; inv_ret E; auto).
  subst s1. cbn [snd] in K. destruct K as [K|(more & K)]; [auto|]. right. exists a, more. auto.
Qed.

(** *** Reading the application's data *)
Lemma sfi_wire f : forall st e rec oda l r l' st', is_byte rec -> sfi_loop tr f st e rec oda l = Ret (r, l', st') ->
  wire read_record_cmd (snd st) (snd st').
Proof.
  induction f as [|f IH]; intros st e rec oda l r l' st' Hr E; [discriminate|]. cbn [sfi_loop] in E.
  destruct (_ <? _); [inv_ret E; apply wire_refl|]. apply bind_Ret_inv in E as (a & Ea & E). apply read_log in Ea; auto.
  destruct (negb _); [inv_ret E; exact Ea|]. destruct (negb _); [inv_ret E; exact Ea|].
  apply bind_Ret_inv in E as ([[q inv] l1] & _ & E). destruct (negb _); [inv_ret E; exact Ea|].
  eapply wire_trans; [exact Ea|]. eapply IH; [|exact E]. apply u8_byte.
Qed.
Lemma afl_loop_wire rf f : forall st itr oda l r l' st', bytes itr -> afl_loop tr f rf st itr oda l = Ret (r, l', st') ->
  wire read_record_cmd (snd st) (snd st').
Proof.
  induction f as [|f IH]; intros st itr oda l r l' st' Bi E; [discriminate|]. cbn [afl_loop] in E.
  destruct (afl_next_spec itr Bi) as [(_ & N)|[(e & rest & -> & V & _ & N)|(_ & _ & q & Q & N)]]; rewrite N in E; cbn [bind] in E.
  - inv_ret E. apply wire_refl.
  - apply bytes_app in Bi as [_ Br]. change (0 <? 4) with true in E. cbv iota in E.
    apply bind_Ret_inv in E as ([[q l1] s1] & E1 & E). unfold read_sfi_records in E1. apply sfi_wire in E1; [|destruct V as (_ & V & V2 & _); unfold is_byte; lia].
    destruct (_ =? _); [eapply wire_trans; [exact E1|]; eapply IH; eauto|].
    destruct (_ =? _); [eapply wire_trans; [exact E1|]; eapply IH; eauto|]. inv_ret E. exact E1.
  - destruct (Z.ltb_spec 0 q); [lia|]. destruct (_ <? _); inv_ret E; apply wire_refl.
Qed.
Lemma read_data_wire rf s log c r c' s' log' : Forall wf_field (k_icc c) ->
  read_application_data tr rf (s, log) c = Ret (r, c', (s', log')) -> exists g, log' = log ++ g /\ sent read_record_cmd g.
Proof.
  intros Wf E. change (wire read_record_cmd log log'). unfold read_application_data in E.
  destruct (find_tag 0x94 (k_icc c)) as [afl|] eqn:Ef; [|inv_ret E; apply wire_refl].
  assert (Wa : wf_field afl). { rewrite Forall_forall in Wf. apply Wf. apply find_tag_spec in Ef. eapply first_with_in; exact Ef. }
  rewrite wf_sub in E by auto. cbn [bind] in E. apply bind_Ret_inv in E as ([[q rec] s1] & E1 & E).
  assert (W : wire read_record_cmd log (snd s1)).
  { unfold read_afl_records in E1. destruct (_ =? _)%nat; [inv_ret E1; apply wire_refl|].
    destruct (afl_itr_init (f_val afl)) as [q1 [itr|]] eqn:Ei; [|inv_ret E1; apply wire_refl].
    apply afl_loop_wire in E1; [exact E1|]. unfold afl_itr_init in Ei.
    destruct Wa as (_ & Ba & _). repeat match type of Ei with (if ?b then _ else _) = _ => destruct b; try discriminate end. congruence. }
  repeat match type of E with (if ?b then _ else _) = _ => destruct b; [inv_ret E; exact W|] end.
  inv_ret E. exact W.
Qed.

(** *** Initiating application processing *)
Lemma gpo_data_shape pos aid params config fields d : is_byte pos -> bytes aid -> Forall wf_field params -> Forall wf_field config ->
  gpo_command_data [params; config; terminal_data pos aid] fields (Some d) -> bytes d /\ 2 <= Zlen d <= 255 /\ nth 0 d 0 = 0x83.
Proof.
  intros Bp Ba Wp Wc G. inversion G as [|f es vs F D Ne Fe L E]. subst d.
  assert (Bs : Forall (Forall (fun f => bytes (f_val f))) [params; config; terminal_data pos aid]).
  { constructor; [eapply Forall_impl; [|exact Wp]; intros g (_ & Bg & _); exact Bg|].
    constructor; [eapply Forall_impl; [|exact Wc]; intros g (_ & Bg & _); exact Bg|].
    constructor; [|constructor]. repeat constructor; cbn [f_val]; auto; unfold is_byte; lia. }
  assert (Bv : bytes (concat vs)).
  { clear -Fe Bs. induction Fe as [|e v es vs He Fe IH]; cbn [concat]; [constructor|]. apply bytes_app_intro; [eapply entry_bytes; eauto|auto]. }
  assert (Hl : 0 <= Zlen (concat vs)) by (unfold Zlen; lia).
  split; [|split; [|reflexivity]].
  - apply bytes_cons; [unfold is_byte; lia|]. apply bytes_app_intro; [|exact Bv]. unfold ber_length.
    destruct (_ <? _); repeat (apply bytes_cons; [unfold is_byte; lia|]); constructor.
  - unfold ber_length. destruct (Z.ltb_spec (Zlen (concat vs)) 128); unfold Zlen in *; cbn [length app]; lia.
Qed.

Lemma initiate_wire buf s log c pos a r c' s' log' : respects_buffer card -> (forall s tx, bytes (snd (snd (card s tx)))) ->
  bytes tjunk -> length buf = 255%nat -> is_byte pos -> k_app c = Some (a, InApp) ->
  wf_field (a_aid a) -> fields_ok (a_tlvs a) -> fields_ok (k_params c) -> fields_ok (k_config c) ->
  initiate tr buf (s, log) c pos = Ret (r, c', (s', log')) ->
  (log' = log /\ r = CARD_ERROR) \/
  exists d more, gpo_command_data [k_params c; k_config c; terminal_data pos (f_val (a_aid a))] (a_tlvs a) d /\
    let d := match d with Some d => d | None => [0x83; 0] end in
    let cmd := [0x80; 0xA8; 0; 0; Zlen d] ++ d ++ [0] in
    log' = log ++ cmd :: more /\ Forall (follow_up cmd) more.
Proof.
  intros Rb Hb Bj Lb Bp Ha Wa Ft Fp Fc E.
  assert (W : wf_transport tr) by (apply ttl_transport_wf; auto using logged_respects, logged_bytes).
  pose proof (initiate_spec tr W (repeat 0 17) (repeat_length 0 17) buf (s, log) c pos a Lb Bp Ha Wa Ft Fp Fc) as K. cbv zeta in K.
  rewrite E in K. destruct K as (_ & [(Es & Er & _)|(d & q & gpo & p1 & p2 & G & Eg & _)]).
  - left. injection Es as _ ->. auto.
  - right. exists d.
    assert (Hd : forall d0, d = Some d0 -> bytes d0 /\ 2 <= Zlen d0 <= 255 /\ nth 0 d0 0 = 0x83).
    { intros d0 ->. destruct Fp, Fc, Wa as (_ & Ba & _). refine (gpo_data_shape _ _ _ _ _ _ _ _ _ _ G); auto. }
    unfold get_processing_options in Eg.
    assert (Ed : match d with Some d => ((Zlen d <? 2) || (255 <? Zlen d))%bool | None => false end = false).
    { destruct d as [d0|]; [|reflexivity]. destruct (Hd d0 eq_refl) as (_ & L & _). lia. }
    rewrite Ed in Eg. apply bind_Ret_inv in Eg as (an & Ea & Eg). apply gpo_log in Ea; [|exact Hd]. cbn [snd] in Ea.
    destruct Ea as (more & Ea & F). exists more. split; [exact G|]. cbv zeta in Ea, F |- *. split; [|exact F]. rewrite <- Ea.
    assert (Es : n_st an = (s', log')); [|now rewrite Es].
    destruct (negb _); [now inv_ret Eg|]. destruct (negb _); [now inv_ret Eg|]. apply bind_Ret_inv in Eg as ([q1 t] & _ & Eg).
    destruct (_ <=? _); [now inv_ret Eg|]. destruct t as [t|]; [|discriminate]. apply bind_Ret_inv in Eg as (g & _ & Eg).
    destruct g as [g|e]; [|now inv_ret Eg]. destruct (find_tag 0x82 g); [|now inv_ret Eg]. destruct (find_tag 0x94 g); now inv_ret Eg.
Qed.
End Wire.
