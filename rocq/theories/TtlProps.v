(** Property theorems for command APDUs and the transport layer: C21 - C27, C61, C62. *)
From Verif Require Import Base BaseLemmas BerSpec BerProofs TtlModel TtlSpec TtlProofs.

(** C21.  False for extended lengths: a well-formed case 3E command is not
    recognised (and a string that is no command at all is taken for one). *)
Theorem C21_apdu_case_extended_refuted :
  (exists c, bytes c /\ command A3E c /\ apdu_case c = Ret (-2)) /\
  (exists c, bytes c /\ (forall k, ~ command k c) /\ apdu_case c = Ret CASE_3E).
Proof.
  assert (B : forall l, forallb (fun b => (0 <=? b) && (b <? 256))%bool l = true -> bytes l).
  { intros l H. apply Forall_forall. intros b Hb. rewrite forallb_forall in H.
    apply H in Hb. unfold is_byte. lia. }
  split.
  - exists [0; 0xDA; 1; 2; 0; 0; 2; 0xAA; 0xBB]. split; [apply B; reflexivity|]. split; [|vm_compute; reflexivity].
    apply (cmd_3e [0; 0xDA; 1; 2] 0 2 [0xAA; 0xBB]); reflexivity || (cbn; lia).
  - exists [0; 0xDA; 1; 2; 0; 9; 0; 2; 0xBB]. split; [apply B; reflexivity|]. split; [|vm_compute; reflexivity].
    intros k Hk. remember [0; 0xDA; 1; 2; 0; 9; 0; 2; 0xBB] as c eqn:Ec.
    destruct Hk; destruct h as [|h0 [|h1 [|h2 [|h3 [|]]]]]; try discriminate; cbn [app] in Ec.
    all: try (inversion Ec; subst; unfold Zlen in *; lia).
    + inversion Ec; subst. unfold be in *. cbn in *. lia.
    + inversion Ec; subst. cbn in *. destruct d as [|? [|? [|? ?]]]; try discriminate.
Qed.
Print Assumptions C21_apdu_case_extended_refuted.

(** C21.  Exact for commands without extended data: a string whose fifth octet is
    not zero, or of at most 7 octets, gets its case if it is a command and an
    error otherwise.  Missing: strings of 8 and more octets whose fifth is 0. *)
Theorem C21_apdu_case_partial : forall c, bytes c -> (Zlen c <= 7 \/ nth 4 c 0 <> 0) ->
  exists r, apdu_case c = Ret r /\
   (forall k, command k c -> r = match k with A1 => 0 | A2S => 1 | A2E => 2 | A3S => 3 | A3E => 4 | A4S => 5 | A4E => 6 end) /\
   ((forall k, ~ command k c) -> r < 0).
Proof. exact apdu_case_short. Qed.
Print Assumptions C21_apdu_case_partial.

(** C21.  No octet string is read out of bounds. *)
Theorem C21_apdu_case_safe : forall c, bytes c -> exists k, apdu_case c = Ret k.
Proof. exact apdu_case_total. Qed.
Print Assumptions C21_apdu_case_safe.

Example C21_ex : apdu_case [0;0xA4;4;0;5;1;2;3;4;5;0] = Ret CASE_4S /\ apdu_case [0;0xA4;4;0;5;1;2;3] = Ret (-2) /\
  apdu_case [0;0xB2;1;12;0] = Ret CASE_2S.
Proof. vm_compute; auto. Qed.

(** C22.  SELECT by DF name. *)
Theorem C22_select_octets : forall S fuel (card : cardfn S) md junk s name outb sw0 t,
  bytes name -> 5 <= Zlen name <= 16 -> 256 <= Zlen outb ->
  ttl_select fuel (logged card) md junk (s, []) name outb sw0 = Ret t ->
  sends_command md ([0x00; 0xA4; 0x04; 0x00; Zlen name] ++ name ++ [0x00]) (snd (o_card t)).
Proof. intros. eapply select_sends; eauto. unfold is_byte; lia. Qed.
Print Assumptions C22_select_octets.
Theorem C22_select_next_octets : forall S fuel (card : cardfn S) md junk s name outb sw0 t,
  bytes name -> 5 <= Zlen name <= 16 -> 256 <= Zlen outb ->
  ttl_select_next fuel (logged card) md junk (s, []) name outb sw0 = Ret t ->
  sends_command md ([0x00; 0xA4; 0x04; 0x02; Zlen name] ++ name ++ [0x00]) (snd (o_card t)).
Proof. intros. eapply select_sends; eauto. unfold is_byte; lia. Qed.
Print Assumptions C22_select_next_octets.
(** Nothing is sent for a DF name of another length (the card is in its old
    state). *)
Theorem C22_select_range : forall S fuel (card : cardfn S) md junk s name outb sw0,
  ~ (5 <= Zlen name <= 16) -> 256 <= Zlen outb ->
  ttl_select fuel card md junk s name outb sw0 = Ret (mkR (-3) outb (Zlen outb) sw0 s) /\
  ttl_select_next fuel card md junk s name outb sw0 = Ret (mkR (-3) outb (Zlen outb) sw0 s).
Proof. intros. split; now apply select_range. Qed.
Print Assumptions C22_select_range.
Theorem C22_read_record_octets : forall S fuel (card : cardfn S) md s sfi rec outb sw0 t,
  is_byte rec -> 1 <= sfi <= 30 -> 256 <= Zlen outb ->
  ttl_read_record fuel (logged card) md (s, []) sfi rec outb sw0 = Ret t ->
  sends_command md [0x00; 0xB2; rec; sfi * 8 + 4; 0x00] (snd (o_card t)).
Proof. exact @read_record_sends. Qed.
Print Assumptions C22_read_record_octets.
Theorem C22_read_record_range : forall S fuel (card : cardfn S) md s sfi rec outb sw0,
  ~ (1 <= sfi <= 30) -> 256 <= Zlen outb ->
  ttl_read_record fuel card md s sfi rec outb sw0 = Ret (mkR (-3) outb (Zlen outb) sw0 s).
Proof. exact @read_record_range. Qed.
Print Assumptions C22_read_record_range.
(** GET PROCESSING OPTIONS; without data an empty command template is sent. *)
Theorem C22_gpo_octets : forall S fuel (card : cardfn S) md junk s data outb sw0 t, 256 <= Zlen outb ->
  (forall d, data = Some d -> bytes d /\ 2 <= Zlen d <= 255 /\ nth 0 d 0 = 0x83) ->
  ttl_gpo fuel (logged card) md junk (s, []) data outb sw0 = Ret t ->
  let d := match data with Some d => d | None => [0x83; 0x00] end in
  sends_command md ([0x80; 0xA8; 0x00; 0x00; Zlen d] ++ d ++ [0x00]) (snd (o_card t)).
Proof. exact @gpo_sends. Qed.
Print Assumptions C22_gpo_octets.
Theorem C22_gpo_range : forall S fuel (card : cardfn S) md junk s d outb sw0, 256 <= Zlen outb ->
  ~ (2 <= Zlen d <= 255 /\ nth 0 d 0 = 0x83) ->
  exists code, code < 0 /\
  ttl_gpo fuel card md junk s (Some d) outb sw0 = Ret (mkR code outb (Zlen outb) sw0 s).
Proof. exact @gpo_range. Qed.
Print Assumptions C22_gpo_range.

Example C22_ex :
  match ttl_select 9 (logged script) ModeApdu [] ([[0x61;3]; [0x6F;1;0xAA;0x90;0]], []) [0xA0;0;0;0;3;0x10;0x10] (repeat 7 256) 0 with
  | Ret t => o_ret t = 0 /\ o_sw t = 0x9000 /\ o_len t = 3 /\ firstn 4 (o_buf t) = [0x6F;1;0xAA;7] /\
      snd (o_card t) = [[0;0xA4;4;0;7;0xA0;0;0;0;3;0x10;0x10;0]; [0;0xC0;0;0;3]]
  | _ => False end.
Proof. vm_compute; auto 10. Qed.

(** C23.  Any command, any card and any response buffer of at least two octets:
    nothing is accessed out of bounds and the length reported is inside the
    buffer.  For T=0 readers and commands with data, this holds if the memory
    behind the command (255 octets) can be read; see C61. *)
Theorem C23_trx_buffer_safe : forall S fuel (card : cardfn S) md s cmd tail r sw0,
  respects_buffer card -> (forall s tx, bytes (snd (snd (card s tx)))) ->
  bytes cmd -> bytes tail -> (2 <= length r)%nat ->
  (md = ModeApdu \/ (length cmd <= 5)%nat \/ (255 <= length tail)%nat) ->
  match ttl_trx fuel card md s cmd tail r sw0 with
  | UB => False
  | NoFuel => True
  | Ret t => length (o_buf t) = length r /\ 0 <= o_len t <= Zlen r
  end.
Proof. exact @trx_safe. Qed.
Print Assumptions C23_trx_buffer_safe.

(** Two data parts of two octets: they fit in 6 octets, not in 5. *)
Example C23_ex :
  ttl_trx 9 script ModeApdu [[1;2;0x61;2]; [3;4;0x90;0]] [0;0xB2;1;12;0] [] [9;9;9;9;9;9] 0 =
    Ret (mkR 0 [1;2;3;4;0x90;0] 6 0x9000 []) /\
  ttl_trx 9 script ModeApdu [[1;2;0x61;2]; [3;4;0x90;0]] [0;0xB2;1;12;0] [] [9;9;9;9;9] 0 =
    Ret (mkR (-5) [1;2;9;9;9] 3 0x9000 []).
Proof. vm_compute; auto. Qed.

(** C24.  A chain of 61XX and 6CXX replies of any length (APDU mode): if the card
    answers the commands of the chain with the parts of the chain, exactly these
    commands are sent (the card ends in the state after them) and the caller
    gets the parts in order and the final status.  (For a case 4 command that is
    itself answered 6CXX, the command "of the chain" lacks its data: C62.) *)
Theorem C24_trx_chain : forall S (card : cardfn S) s cmd tail r sw0 k ls d a b s',
  bytes cmd -> command k cmd -> k = A2S \/ k = A4S ->
  Forall (fun l => Zlen (link_data l) <= 256) ls -> Zlen d <= 256 ->
  is_byte a -> is_byte b -> a <> 0x61 -> a <> 0x6C ->
  ~ (k = A4S /\ d = [] /\ (a = 0x62 \/ a = 0x63)) ->
  talk card s (chain_commands cmd ls) = (s', map (fun rx => (0, rx)) (map link_rx ls ++ [d ++ [a; b]])) ->
  Zlen (chain_data ls ++ d) + 2 <= Zlen r ->
  ttl_trx (Datatypes.S (length ls)) card ModeApdu s cmd tail r sw0 =
    Ret (mkR 0 (chain_data ls ++ d ++ [a; b] ++ skipn (length (chain_data ls ++ d) + 2) r)
           (Zlen (chain_data ls ++ d) + 2) (a * 256 + b) s').
Proof. exact @trx_chain. Qed.
Print Assumptions C24_trx_chain.

(** C24.  A warning without data before the data of a case 4 command: GET RESPONSE
    follows, and the status reported is the warning. *)
Theorem C24_trx_warning : forall S (card : cardfn S) s cmd tail r sw0 ls w1 w2 ls2 d a b s',
  bytes cmd -> command A4S cmd ->
  Forall (fun l => Zlen (link_data l) <= 256) ls -> Forall (fun l => Zlen (link_data l) <= 256) ls2 ->
  Zlen d <= 256 ->
  w1 = 0x62 \/ w1 = 0x63 -> is_byte w2 -> is_byte a -> is_byte b -> a <> 0x61 -> a <> 0x6C ->
  talk card s (chain_commands cmd ls ++ chain_commands
      [0x00; 0xC0; 0x00; 0x00; if ((w1 =? 0x62) && (2 <=? w2) && (w2 <=? 0x80))%bool then w2 else 0] ls2) =
    (s', map (fun rx => (0, rx)) (map link_rx ls ++ [[w1; w2]] ++ map link_rx ls2 ++ [d ++ [a; b]])) ->
  Zlen (chain_data ls ++ chain_data ls2 ++ d) + 2 <= Zlen r ->
  ttl_trx (2 + length ls + length ls2) card ModeApdu s cmd tail r sw0 =
    Ret (mkR 0 (chain_data ls ++ chain_data ls2 ++ d ++ [w1; w2] ++
                skipn (length (chain_data ls ++ chain_data ls2 ++ d) + 2) r)
           (Zlen (chain_data ls ++ chain_data ls2 ++ d) + 2) (w1 * 256 + w2) s').
Proof. exact @trx_warning. Qed.
Print Assumptions C24_trx_warning.

(** C24.  End to end for READ RECORD: the record is the data of the chain. *)
Theorem C24_read_record_chain : forall S (card : cardfn S) s sfi rec outb sw0 ls d a b s',
  is_byte rec -> 1 <= sfi <= 30 -> 256 <= Zlen outb ->
  Forall (fun l => Zlen (link_data l) <= 256) ls -> is_byte a -> is_byte b -> a <> 0x61 -> a <> 0x6C ->
  talk card s (chain_commands [0x00; 0xB2; rec; sfi * 8 + 4; 0x00] ls) =
     (s', map (fun rx => (0, rx)) (map link_rx ls ++ [d ++ [a; b]])) ->
  Zlen (chain_data ls ++ d) <= 256 ->
  let data := chain_data ls ++ d in
  ttl_read_record (Datatypes.S (length ls)) card ModeApdu s sfi rec outb sw0 =
    Ret (mkR 0 (data ++ skipn (length data) outb) (Zlen data) (a * 256 + b) s').
Proof. exact @read_record_chain. Qed.
Print Assumptions C24_read_record_chain.

Example C24_ex :
  ttl_trx 4 (logged script) ModeApdu ([[0x6C;4]; [1;0x61;3]; [2;3;4;0x90;0]], []) [0;0xB2;1;12;0] [] (repeat 9 8) 0 =
    Ret (mkR 0 [1;2;3;4;0x90;0;9;9] 6 0x9000 ([], [[0;0xB2;1;12;0]; [0;0xB2;1;12;4]; [0;0xC0;0;0;3]])) /\
  ttl_trx 4 (logged script) ModeApdu ([[0x62;0x83]; [1;2;0x90;0]], []) [0;0xA4;4;0;1;7;0] [] (repeat 9 4) 0 =
    Ret (mkR 0 [1;2;0x62;0x83] 4 0x6283 ([], [[0;0xA4;4;0;1;7;0]; [0;0xC0;0;0;0]])).
Proof. vm_compute; auto. Qed.

(** C25.  False: with a card that always answers 6110 the exchange never ends. *)
Definition endless_card (s : unit) (tx : list Z) : unit * (Z * list Z) := (tt, (0, [0x61; 0x10])).
Lemma endless fuel v : t_tx v = TxHdr /\ t_txlen v = 5%nat /\ length (t_hdr v) = 5%nat ->
  trx_loop endless_card ModeApdu [0;0xB2;1;12;0] 5 CASE_2S fuel v = NoFuel.
Proof.
  revert v. induction fuel as [|fuel IH]; intros [c h dd tx txl r rp rl sw] (Ht & Hl & Hh); [reflexivity|].
  cbn [t_tx t_txlen t_hdr] in *. subst. destruct h as [|h0 [|h1 [|h2 [|h3 [|h4 [|]]]]]]; try discriminate.
  cbn [trx_loop]. unfold trx_step. cbn. apply IH. auto.
Qed.
Theorem C25_trx_termination_refuted :
  exists (card : cardfn unit) s cmd r, bytes cmd /\ forall fuel, ttl_trx fuel card ModeApdu s cmd [] r 0 = NoFuel.
Proof.
  exists endless_card, tt, [0;0xB2;1;12;0], [0;0]. split.
  - repeat (constructor; [unfold is_byte; lia|]). constructor.
  - intros [|fuel]; [reflexivity|]. cbn. apply endless. auto.
Qed.
Print Assumptions C25_trx_termination_refuted.
(** C25.  It ends within [fuel] exchanges for a card that, whatever it is sent,
    does not give [fuel] continuing replies in a row.  Missing: a bound for
    arbitrary cards (there is none). *)
Theorem C25_trx_termination_partial : forall S fuel (card : cardfn S) md s cmd tail r sw0, bytes cmd ->
  (forall txs, length txs = fuel -> ~ Forall continuing (snd (talk card s txs))) ->
  ttl_trx fuel card md s cmd tail r sw0 <> NoFuel.
Proof. exact @trx_ends. Qed.
Print Assumptions C25_trx_termination_partial.
Example C25_ex : continuing (0, [1;2;0x61;0x10]) /\ ~ continuing (0, [0x90;0x00]).
Proof.
  split.
  - split; [reflexivity|]. right. exists [1;2], 0x61, 0x10. auto.
  - intros [_ [H|(d & a & b & E & H)]]; [discriminate|]. cbn [snd] in E.
    destruct d as [|? [|? [|? ?]]]; inversion E; subst; destruct H as [H|[H|[_ [H|H]]]]; discriminate.
Qed.

(** C26.  False: with a one-octet response buffer a plain status 9000 is written
    over its end. *)
Theorem C26_small_buffer_refuted :
  exists (card : cardfn (list (list Z))) s cmd r, bytes cmd /\ respects_buffer card /\ length r = 1%nat /\
    ttl_trx 1 card ModeApdu s cmd [] r 0 = UB.
Proof.
  exists (fun _ _ => ([], (0, [0x90; 0]))), [], [0;0xB2;1;12;0], [0]. split.
  - repeat (constructor; [unfold is_byte; lia|]). constructor.
  - split; [intros s tx; cbn; lia|]. split; [reflexivity|]. vm_compute. reflexivity.
Qed.
Print Assumptions C26_small_buffer_refuted.
(** C26.  Sizes 0 (rejected with -1, nothing sent or written) and from 2 on (C23)
    are safe. Missing: size 1. *)
Theorem C26_small_buffer_partial : forall S fuel (card : cardfn S) md s cmd tail sw0,
  ttl_trx fuel card md s cmd tail [] sw0 = Ret (mkR (-1) [] 0 sw0 s).
Proof. intros. unfold ttl_trx. rewrite orb_true_r. reflexivity. Qed.
Print Assumptions C26_small_buffer_partial.
Example C26_ex : ttl_trx 1 script ModeApdu [[0x90;0]] [0;0xB2;1;12;0] [] [0;0] 0 =
   Ret (mkR 0 [0x90;0] 2 0x9000 []).
Proof. vm_compute; reflexivity. Qed.

(** C27.  False: the card acknowledges INS A4 octet by octet (5B = A4 xor FF); after
    the first data octet the library takes the next data octet for INS, so the
    second acknowledge is an unknown procedure byte. *)
Theorem C27_tpdu_data_once_refuted :
  exists cmd r t, command A4S cmd /\
    ttl_trx 9 (logged script) ModeTpdu ([[0x5B]; [0x5B]; [0x61;2]], []) cmd (repeat 0 256) r 0 = Ret t /\
    o_ret t = 6 /\ snd (o_card t) = [[0;0xA4;4;0;2]; [0xA0]].
Proof.
  exists [0;0xA4;4;0;2;0xA0;0xB0;0], (repeat 0 4). eexists. split; [|split; [vm_compute; reflexivity|auto]].
  apply (cmd_4s [0;0xA4;4;0] [0xA0;0xB0] 0); [reflexivity|cbn; lia].
Qed.
Print Assumptions C27_tpdu_data_once_refuted.
(** C27.  True if the card acknowledges all data at once directly after the header;
    afterwards only headers of five octets are sent, and none of them carries data.
    (The header of a repeated command is taken from behind the data, see C61.)
    Missing: octet-wise acknowledgement. *)
Theorem C27_tpdu_ack_all_partial : forall S fuel (card : cardfn S) s cmd d tail r sw0 t s1 h le, bytes cmd ->
  cmd = h ++ [Zlen d] ++ d ++ le -> length h = 4%nat -> 1 <= Zlen d <= 255 ->
  (le = [] \/ exists x, le = [x]) -> (1 <= length r)%nat -> nth 1 h 0 <> 0x60 ->
  card s (h ++ [Zlen d]) = (s1, (0, [nth 1 h 0])) ->
  ttl_trx fuel (logged card) ModeTpdu (s, []) cmd tail r sw0 = Ret t ->
  snd (o_card t) = [h ++ [Zlen d]] \/ exists more, snd (o_card t) = (h ++ [Zlen d]) :: d :: more /\
    Forall (fun m => exists x, m = [0x00; 0xC0; 0x00; 0x00; x] \/ m = firstn 4 (d ++ le ++ tail) ++ [x]) more.
Proof. exact @tpdu_ack_all. Qed.
Print Assumptions C27_tpdu_ack_all_partial.
Example C27_ex :
  match ttl_trx 9 (logged script) ModeTpdu ([[0xA4]; [0x61;2]; [0xC0;5;6;0x90;0]], []) [0;0xA4;4;0;2;0xA0;0xB0;0] [] (repeat 0 4) 0 with
  | Ret t => o_ret t = 0 /\ o_buf t = [5;6;0x90;0] /\ snd (o_card t) = [[0;0xA4;4;0;2]; [0xA0;0xB0]; [0;0xC0;0;0;2]]
  | _ => False end.
Proof. vm_compute; auto. Qed.

(** C61.  False for T=0 readers: (1) a PUT DATA of one octet reads behind the
    command; (2) a card that answers a SELECT header with 61FF and the GET
    RESPONSE with C0 is sent 255 octets starting at the command's data, i.e.
    memory behind the command. *)
Theorem C61_tpdu_command_bounds_refuted :
  (exists cmd s r, command A3S cmd /\ length r = 258%nat /\
     ttl_trx 9 script ModeTpdu s cmd [] r 0 = UB) /\
  (exists cmd s r t leak, command A4S cmd /\
     ttl_trx 9 (logged script) ModeTpdu (s, []) cmd (repeat 0xEE 255) r 0 = Ret t /\
     In leak (snd (o_card t)) /\ leak = [0xA0;1;2;3;4;0] ++ repeat 0xEE 249).
Proof.
  split.
  - exists [0;0xDA;1;2;1;7], [[0xDA]; [0x90;0]], (repeat 0 258). split; [|split; vm_compute; reflexivity].
    apply (cmd_3s [0;0xDA;1;2] [7]); [reflexivity|cbn; lia].
  - exists [0;0xA4;4;0;5;0xA0;1;2;3;4;0], [[0x61;0xFF]; [0xC0]; [0x90;0]], (repeat 0 258).
    eexists. eexists. split; [|split; [vm_compute; reflexivity|split; [|reflexivity]]].
    + apply (cmd_4s [0;0xA4;4;0] [0xA0;1;2;3;4] 0); [reflexivity|cbn; lia].
    + vm_compute. auto.
Qed.
Print Assumptions C61_tpdu_command_bounds_refuted.
(** C61.  True in APDU mode, and for commands without data also for T=0: with
    nothing readable behind the command there is no undefined behaviour.
    Missing: commands with data and T=0 readers. *)
Theorem C61_command_bounds_partial : forall S fuel (card : cardfn S) md s cmd r sw0,
  respects_buffer card -> (forall s tx, bytes (snd (snd (card s tx)))) ->
  bytes cmd -> (2 <= length r)%nat -> (md = ModeApdu \/ (length cmd <= 5)%nat) ->
  ttl_trx fuel card md s cmd [] r sw0 <> UB.
Proof.
  intros S fuel card md s cmd r sw0 H1 H2 H3 H4 H5 E.
  pose proof (trx_safe fuel card md s cmd [] r sw0 H1 H2 H3 ltac:(constructor) H4 ltac:(tauto)) as H.
  rewrite E in H. exact H.
Qed.
Print Assumptions C61_command_bounds_partial.
Example C61_ex : ttl_trx 9 (logged script) ModeApdu ([[0x61;0xFF]; [0xC0]], []) [0;0xA4;4;0;5;0xA0;1;2;3;4;0] [] [0;0] 0 =
  Ret (mkR 4 [0xC0;0] 1 0 ([], [[0;0xA4;4;0;5;0xA0;1;2;3;4;0]; [0;0xC0;0;0;0xFF]])).
Proof. vm_compute; reflexivity. Qed.

(** C62.  False for case 4 commands: after 6CXX the command is repeated without its
    data (APDU mode), and with T=0, after the data, its first four data octets
    are sent as a command header. *)
Theorem C62_wrong_le_repeat_refuted :
  exists cmd r t1 t2, command A4S cmd /\
    ttl_trx 9 (logged script) ModeApdu ([[0x6C;2]; [0x90;0]], []) cmd [] r 0 = Ret t1 /\
    snd (o_card t1) = [cmd; [0;0xA4;4;0;2]] /\
    ttl_trx 9 (logged script) ModeTpdu ([[0xA4]; [0x6C;2]; [0x90;0]], []) cmd [] r 0 = Ret t2 /\
    snd (o_card t2) = [[0;0xA4;4;0;5]; [0xA0;1;2;3;4]; [0xA0;1;2;3;2]].
Proof.
  exists [0;0xA4;4;0;5;0xA0;1;2;3;4;0], (repeat 0 4). do 2 eexists. split.
  - apply (cmd_4s [0;0xA4;4;0] [0xA0;1;2;3;4] 0); [reflexivity|cbn; lia].
  - repeat split; vm_compute; reflexivity.
Qed.
Print Assumptions C62_wrong_le_repeat_refuted.
(** C62.  True for case 2 commands, in both modes.  Missing: case 4. *)
Theorem C62_wrong_le_repeat_partial : forall S fuel (card : cardfn S) md s h le xx tail r sw0 t s1,
  bytes (h ++ [le]) -> length h = 4%nat -> (1 <= length r)%nat ->
  card s (h ++ [le]) = (s1, (0, [0x6C; xx])) ->
  ttl_trx fuel (logged card) md (s, []) (h ++ [le]) tail r sw0 = Ret t ->
  exists more, snd (o_card t) = (h ++ [le]) :: (h ++ [xx]) :: more.
Proof. exact @wrong_le_case2. Qed.
Print Assumptions C62_wrong_le_repeat_partial.
Example C62_ex : ttl_trx 9 (logged script) ModeTpdu ([[0x6C;1]; [0xB2;7;0x90;0]], []) [0;0xB2;1;12;0] [] [0;0;0] 0 =
  Ret (mkR 0 [7;0x90;0] 3 0x9000 ([], [[0;0xB2;1;12;0]; [0;0xB2;1;12;1]])).
Proof. vm_compute; reflexivity. Qed.
