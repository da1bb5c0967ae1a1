(** Property theorems C28-C31, C33, C34, C66-C69: terminal application layer. *)
From Verif Require Import Base BaseLemmas BerModel BerSpec BerProofs TlvListModel TlvSpec TlvModel DolModel TtlModel TtlSpec FieldsModel FieldsSpec AppModel AppSpec DolProofs AppProofs TalModel TalSpec TalProofs TalWire.

(** The library's transport layer meets the assumption of the theorems below. *)
Theorem C28_transport : forall S fuel (card : cardfn S) md junk,
  respects_buffer card -> (forall s tx, bytes (snd (snd (card s tx)))) -> bytes junk ->
  md = ModeApdu \/ (255 <= length junk)%nat ->
  wf_transport (ttl_transport fuel card md junk).
Proof. exact @ttl_transport_wf. Qed.
Print Assumptions C28_transport.

(** ** C28 *)
Theorem C28_select_status : forall T (x : transport T) junk fuel s supported apps a,
  x_select x s EMV_PSE = Ret a ->
  (n_ret a <> 0 -> read_pse x junk fuel s supported apps = Ret (TAL_TTL_FAILURE, apps, n_st a)) /\
  (n_ret a = 0 -> n_sw a <> 0x9000 -> exists r, code_for pse_codes TAL_PSE_SELECT_FAILED (n_sw a) r /\
     read_pse x junk fuel s supported apps = Ret (r, apps, n_st a)).
Proof. exact @read_pse_status. Qed.
Print Assumptions C28_select_status.
Theorem C28_directory : forall T (x : transport T), wf_transport x -> forall junk, length junk = 17%nat ->
  forall fuel s supported apps a, Forall wf_field supported ->
  x_select x s EMV_PSE = Ret a -> n_ret a = 0 -> n_sw a = 0x9000 ->
  exists pse, Forall (field_of (n_data a)) pse /\ (forall ts, forest true (n_data a) ts -> pse = flat_map leaves ts) /\
  (absent 0x88 pse -> read_pse x junk fuel s supported apps = Ret (TAL_PSE_SFI_NOT_FOUND, [], n_st a)) /\
  (forall f, first_with 0x88 pse f -> Zlen (f_val f) <> 1 -> read_pse x junk fuel s supported apps = Ret (TAL_PSE_SFI_INVALID, [], n_st a)) /\
  (forall f sfi, first_with 0x88 pse f -> f_val f = [sfi] ->
     (forall recs s', directory x sfi (n_st a) 1 recs s' -> (length recs < fuel)%nat ->
        exists ls, Forall2 (record_apps junk pse supported) recs ls /\
          read_pse x junk fuel s supported apps = Ret (0, apps ++ concat ls, s')) /\
     (forall n s', directory_fails x sfi (n_st a) 1 n s' -> (n < fuel)%nat ->
        read_pse x junk fuel s supported apps = Ret (TAL_TTL_FAILURE, [], s')) /\
     match read_pse x junk fuel s supported apps with
     | UB => False
     | NoFuel => True
     | Ret (r, apps', s') => (r = 0 /\ exists recs, directory x sfi (n_st a) 1 recs s') \/
                             (r = TAL_TTL_FAILURE /\ exists n, directory_fails x sfi (n_st a) 1 n s')
     end).
Proof. exact @read_pse_directory. Qed.
Print Assumptions C28_directory.
Theorem C28_empty_unless_success : forall T (x : transport T) junk fuel s supported r apps' s',
  read_pse x junk fuel s supported [] = Ret (r, apps', s') -> r <> 0 -> apps' = [].
Proof. exact @read_pse_empty. Qed.
Print Assumptions C28_empty_unless_success.
(** The results can be told apart; those that are errors are negative, other outcomes positive. *)
Theorem C28_results_differ :
  NoDup [0; TAL_TTL_FAILURE; TAL_CARD_BLOCKED; TAL_PSE_NOT_FOUND; TAL_PSE_BLOCKED; TAL_PSE_SELECT_FAILED; TAL_PSE_SFI_NOT_FOUND; TAL_PSE_SFI_INVALID] /\
  TAL_TTL_FAILURE < 0 /\ TAL_CARD_BLOCKED < 0 /\
  Forall (fun r => 0 < r) [TAL_PSE_NOT_FOUND; TAL_PSE_BLOCKED; TAL_PSE_SELECT_FAILED; TAL_PSE_SFI_NOT_FOUND; TAL_PSE_SFI_INVALID].
Proof.
  split; [repeat (constructor; [cbn [In]; intros H; repeat (destruct H as [H|H]; [discriminate H|]); destruct H|]); constructor|].
  split; [reflexivity|]. split; [reflexivity|]. repeat constructor.
Qed.
Print Assumptions C28_results_differ.

(** A card that answers from a script. *)
Definition zeros17 := repeat 0 17.
Definition ex_tr := ttl_transport 9 (logged script) ModeApdu [].
Example C28_ex :
  match read_pse ex_tr zeros17 9
    ([[0x6F;3;0x88;1;1;0x90;0];                                 (* FCI with SFI 1 *)
      [0x70;0x12; 0x61;7;0x4F;5;0xA0;0;0;0;3; 0x61;7;0x4F;5;0xA0;0;0;0;4; 0x90;0];
      [0x6A;0x82];
      [0x6A;0x83]], []) [mkField 0x9F06 5 [0xA0;0;0;0;4] 0] [] with
  | Ret (r, apps, (rest, log)) => (r, map (fun a => f_val (a_aid a)) apps, rest, map (fun c => nth 2 c 0) log)
  | _ => (1, [], [], [])
  end = (0, [[0xA0;0;0;0;4]], [], [4;1;2;3]).
Proof. vm_compute; reflexivity. Qed.
Example C28_blocked_ex : read_pse ex_tr zeros17 9 ([[0x62;0x83]; [0x62;0x83]], []) [] [] =
  Ret (TAL_PSE_BLOCKED, [], ([], [[0;0xA4;4;0;14] ++ EMV_PSE ++ [0]; [0;0xC0;0;0;0]])).
Proof. vm_compute; reflexivity. Qed.

(** ** C29 *)
(** A card whose directory file does not exist: every READ RECORD is answered 6D00. *)
Definition c29_card : cardfn unit := fun s tx =>
  (s, (0, if nth 1 tx 0 =? 0xA4 then [0x6F;3;0x88;1;1;0x90;0] else [0x6D;0])).
(** C29 is false: the loop only ends for 6A83 or a transport failure. *)
Theorem C29_read_pse_ends_refuted : exists S (card : cardfn S) s,
  respects_buffer card /\
  forall fuel, read_pse (ttl_transport 9 card ModeApdu []) zeros17 fuel s [] [] = NoFuel.
Proof.
  exists unit, c29_card, tt. split.
  - intros [] tx. unfold c29_card. destruct (_ =? _); vm_compute; discriminate.
  - intro fuel.
    assert (K : forall f rec, pse_loop (ttl_transport 9 c29_card ModeApdu []) zeros17 f tt 1 rec [mkField 0x88 1 [1] 0] [] [] = NoFuel).
    { induction f as [|f IH]; intro rec; [reflexivity|]. cbn [pse_loop].
      assert (E : x_read (ttl_transport 9 c29_card ModeApdu []) tt 1 rec = Ret (mkAns 0 [] 0x6D00 tt)) by (vm_compute; reflexivity).
      rewrite E. cbn [bind n_ret n_sw n_st Z.eqb Pos.eqb negb]. apply IH. }
    unfold read_pse.
    assert (E : x_select (ttl_transport 9 c29_card ModeApdu []) tt EMV_PSE = Ret (mkAns 0 [0x6F;3;0x88;1;1] 0x9000 tt)) by (vm_compute; reflexivity).
    rewrite E. cbn [bind n_ret n_sw n_st n_data Z.eqb Pos.eqb negb].
    assert (P : tlv_parse [0x6F;3;0x88;1;1] [] = Ret (0, [mkField 0x88 1 [1] 0])) by (vm_compute; reflexivity).
    rewrite P. cbn [bind Z.ltb Z.compare]. change (find_tag 0x88 [mkField 0x88 1 [1] 0]) with (Some (mkField 0x88 1 [1] 0)).
    cbv iota. cbn [f_len Z.eqb Pos.eqb negb f_val]. change (rd [1] 0) with (Ret 1 : out Z). cbn [bind]. rewrite K. reflexivity.
Qed.
Print Assumptions C29_read_pse_ends_refuted.
(** C29.  It ends for every card that at some time answers 6A83 or fails, after that
    many records.  Missing: other cards. *)
Theorem C29_read_pse_ends_partial : forall T (x : transport T), wf_transport x -> forall junk, length junk = 17%nat ->
  forall s supported apps n, Forall wf_field supported ->
  x_select x s EMV_PSE <> NoFuel ->
  (forall a sfi, x_select x s EMV_PSE = Ret a -> is_byte sfi ->
     (exists recs s', directory x sfi (n_st a) 1 recs s' /\ (length recs <= n)%nat) \/
     (exists k s', directory_fails x sfi (n_st a) 1 k s' /\ (k <= n)%nat)) ->
  exists r apps' s', read_pse x junk (S n) s supported apps = Ret (r, apps', s').
Proof. exact @read_pse_ends. Qed.
Print Assumptions C29_read_pse_ends_partial.

(** ** C30 *)
Theorem C30_reads_as_listed : forall T (x : transport T), wf_transport x -> forall es rfuel s l res,
  Forall afl_valid es -> Forall (fun e => a_last e < 255) es -> (1 <= length es <= 63)%nat ->
  read_afl_records x rfuel s (flat_map afl_octets es) l = Ret res -> outcome x s (flat_map listed es) l res.
Proof. exact @read_afl_outcome. Qed.
Print Assumptions C30_reads_as_listed.
Theorem C30_success : forall T (x : transport T), wf_transport x -> forall es rfuel s l datas fs oda s',
  Forall afl_valid es -> Forall (fun e => a_last e < 255) es -> (1 <= length es <= 63)%nat ->
  (256 <= rfuel)%nat -> reads x s (flat_map listed es) datas s' -> records_give true (flat_map listed es) datas fs oda ->
  Forall2 (fun q d => fst q <= 10 -> short_header d) (flat_map listed es) datas ->
  read_afl_records x rfuel s (flat_map afl_octets es) l = Ret (if oda then TAL_ODA_RECORD_INVALID else 0, l ++ fs, s').
Proof. exact @read_afl_complete. Qed.
Print Assumptions C30_success.
Theorem C30_success_only : forall T (x : transport T), wf_transport x -> forall afl rfuel s l r l' s',
  bytes afl -> read_afl_records x rfuel s afl l = Ret (r, l', s') -> r = 0 \/ r = TAL_ODA_RECORD_INVALID ->
  exists es datas fs oda, afl = flat_map afl_octets es /\ Forall afl_valid es /\
    reads x s (flat_map listed es) datas s' /\ records_give false (flat_map listed es) datas fs oda /\
    l' = l ++ fs /\ r = (if oda then TAL_ODA_RECORD_INVALID else 0).
Proof. exact @read_afl_sound. Qed.
Print Assumptions C30_success_only.
(** On the wire: the records asked for are the first of those listed, and all of them
    if the function succeeds. *)
Theorem C30_on_the_wire : forall S fuel (card : cardfn S) md junk, respects_buffer card ->
  (forall s tx, bytes (snd (snd (card s tx)))) -> bytes junk -> md = ModeApdu \/ (255 <= length junk)%nat ->
  forall es rfuel s log l r l' s' log',
  Forall afl_valid es -> Forall (fun e => a_last e < 255) es -> (1 <= length es <= 63)%nat ->
  read_afl_records (ttl_transport fuel (logged card) md junk) rfuel (s, log) (flat_map afl_octets es) l =
    Ret (r, l', (s', log')) ->
  exists done todo gs, flat_map listed es = done ++ todo /\ log' = log ++ concat gs /\ Forall2 record_sent done gs /\
    (r = 0 \/ r = TAL_ODA_RECORD_INVALID -> todo = []).
Proof. exact @afl_wire. Qed.
Print Assumptions C30_on_the_wire.
Theorem C30_success_on_the_wire : forall S fuel (card : cardfn S) md junk, respects_buffer card ->
  (forall s tx, bytes (snd (snd (card s tx)))) -> bytes junk -> md = ModeApdu \/ (255 <= length junk)%nat ->
  forall afl rfuel s log l r l' s' log', bytes afl -> r = 0 \/ r = TAL_ODA_RECORD_INVALID ->
  read_afl_records (ttl_transport fuel (logged card) md junk) rfuel (s, log) afl l = Ret (r, l', (s', log')) ->
  exists es gs, afl = flat_map afl_octets es /\ Forall afl_valid es /\ log' = log ++ concat gs /\
    Forall2 record_sent (flat_map listed es) gs.
Proof. exact @afl_wire_success. Qed.
Print Assumptions C30_success_on_the_wire.
Example C30_ex : read_afl_records ex_tr 256
    ([[0x70;4;0x5A;2;0x12;0x34;0x90;0]; [0x70;3;0x8C;1;7;0x90;0]; [1;2;3;0x90;0]], [])
    [0x08;1;2;0; 0x78;9;9;0] [] =
  Ret (TAL_ODA_RECORD_INVALID, [mkField 0x5A 2 [0x12;0x34] 0; mkField 0x8C 1 [7] 0],
       ([], [[0;0xB2;1;0x0C;0]; [0;0xB2;2;0x0C;0]; [0;0xB2;9;0x7C;0]])).
Proof. vm_compute; reflexivity. Qed.

(** ** C31 *)
(** C31 is false: an entry that ends with record 255 is read for ever. *)
Theorem C31_read_afl_ends_refuted : exists S (card : cardfn S) s afl,
  respects_buffer card /\ afl = afl_octets (mkAfl 1 1 255 0) /\ afl_valid (mkAfl 1 1 255 0) /\
  forall fuel, read_afl_records (ttl_transport 9 card ModeApdu []) fuel s afl [] = NoFuel.
Proof.
  exists unit, (fun s _ => (s, (0, [0x70;0;0x90;0]))), tt, [8;1;255;0].
  split; [intros [] tx; vm_compute; discriminate|]. split; [reflexivity|]. split; [unfold afl_valid; cbn; lia|].
  intro fuel. set (x := ttl_transport 9 _ _ _).
  assert (K : forall f rec oda, is_byte rec -> sfi_loop x f tt (mkAfl 1 1 255 0) rec oda [] = NoFuel).
  { induction f as [|f IH]; intros rec oda Br; [reflexivity|]. cbn [sfi_loop a_last a_sfi].
    destruct (Z.ltb_spec 255 rec); [unfold is_byte in Br; lia|].
    assert (E : x_read x tt 1 rec = Ret (mkAns 0 [0x70;0] 0x9000 tt)) by (vm_compute; reflexivity).
    rewrite E. cbn [bind n_ret n_sw n_st n_data Z.eqb Pos.eqb negb].
    assert (P : sfi_record 1 [0x70;0] [] = Ret (0, false, [])) by (vm_compute; reflexivity).
    rewrite P. cbn [bind Z.eqb negb]. apply IH. unfold u8, is_byte. apply Z.mod_pos_bound. lia. }
  unfold read_afl_records.
  change (length [8;1;255;0] =? 0)%nat with false. cbv iota.
  change (afl_itr_init [8;1;255;0]) with (0, Some [8;1;255;0]). cbv iota beta. cbn [Z.eqb negb length afl_loop].
  assert (N : afl_itr_next [8;1;255;0] = Ret (4, Some (mkAfl 1 1 255 0), [])) by (vm_compute; reflexivity).
  rewrite N. cbn [bind Z.ltb Z.compare]. unfold read_sfi_records. cbn [a_first]. rewrite K by (unfold is_byte; lia). reflexivity.
Qed.
Print Assumptions C31_read_afl_ends_refuted.
(** C31.  It ends if all entries end before record 255.  Missing: last record 255. *)
Theorem C31_read_afl_ends_partial : forall T (x : transport T), wf_transport x -> forall afl rfuel s l,
  bytes afl -> (256 <= rfuel)%nat ->
  (forall es rest, afl = flat_map afl_octets es ++ rest -> Forall afl_valid es -> Forall (fun e => a_last e < 255) es) ->
  read_afl_records x rfuel s afl l = NoFuel -> exists s1 sfi rec1, x_read x s1 sfi rec1 = NoFuel.
Proof. exact @read_afl_ends. Qed.
Print Assumptions C31_read_afl_ends_partial.

(** ** C33 *)
Theorem C33_decoded : forall T (x : transport T) s data l a fs f g,
  (forall d, data = Some d -> 2 <= Zlen d <= 255) -> x_gpo x s data = Ret a ->
  n_ret a = 0 -> n_sw a = 0x9000 -> Zlen (n_data a) <= 256 -> gpo_fields true (n_data a) fs ->
  first_with 0x82 fs f -> first_with 0x94 fs g ->
  get_processing_options x s data l = Ret (0, l ++ fs, GLive f, GLive g, n_st a).
Proof. exact (fun T x => gpo_complete x zeros17 eq_refl). Qed.
Print Assumptions C33_decoded.
Theorem C33_every_outcome : forall T (x : transport T), wf_transport x -> forall s data l,
  match data with Some d => bytes d | None => True end ->
  match get_processing_options x s data l with
  | NoFuel => x_gpo x s data = NoFuel
  | UB => False
  | Ret (r, l', aip, afl, s') =>
    (r = TAL_INVALID_PARAMETER /\ (exists d, data = Some d /\ (Zlen d < 2 \/ 255 < Zlen d)) /\ l' = l /\ s' = s) \/
    ((forall d, data = Some d -> 2 <= Zlen d <= 255) /\ exists a, x_gpo x s data = Ret a /\ s' = n_st a /\
     ((n_ret a <> 0 /\ r = TAL_TTL_FAILURE /\ l' = l) \/
      (n_ret a = 0 /\ n_sw a = 0x6985 /\ r = TAL_GPO_CONDITIONS_NOT_SATISFIED /\ l' = l) \/
      (n_ret a = 0 /\ n_sw a <> 0x9000 /\ n_sw a <> 0x6985 /\ r = TAL_GPO_FAILED /\ l' = l) \/
      (n_ret a = 0 /\ n_sw a = 0x9000 /\ r = TAL_GPO_PARSE_FAILED /\ l' = l /\ forall fs, ~ gpo_fields true (n_data a) fs) \/
      (n_ret a = 0 /\ n_sw a = 0x9000 /\ r = TAL_GPO_FIELD_NOT_FOUND /\ l' = l /\
        forall fs, gpo_fields true (n_data a) fs -> absent 0x82 fs \/ absent 0x94 fs) \/
      (n_ret a = 0 /\ n_sw a = 0x9000 /\ r = 0 /\ exists fs f g, gpo_fields false (n_data a) fs /\ first_with 0x82 fs f /\ first_with 0x94 fs g /\
        l' = l ++ fs /\ aip = GLive f /\ afl = GLive g)))
  end.
Proof. exact (fun T x W => gpo_spec x W zeros17 eq_refl). Qed.
Print Assumptions C33_every_outcome.
Example C33_format_1_ex : get_processing_options ex_tr ([[0x80;6;0x19;0x80;8;1;1;0;0x90;0]], []) None [] =
  Ret (0, [mkField 0x82 2 [0x19;0x80] 0; mkField 0x94 4 [8;1;1;0] 0],
       GLive (mkField 0x82 2 [0x19;0x80] 0), GLive (mkField 0x94 4 [8;1;1;0] 0), ([], [[0x80;0xA8;0;0;2;0x83;0;0]])).
Proof. vm_compute; reflexivity. Qed.
Example C33_format_2_ex : get_processing_options ex_tr
    ([[0x77;14;0x9F;0x36;1;7;0x82;2;0x19;0x80;0x94;4;8;1;1;0;0x90;0]], []) (Some [0x83;0]) [] =
  Ret (0, [mkField 0x9F36 1 [7] 0; mkField 0x82 2 [0x19;0x80] 0; mkField 0x94 4 [8;1;1;0] 0],
       GLive (mkField 0x82 2 [0x19;0x80] 0), GLive (mkField 0x94 4 [8;1;1;0] 0), ([], [[0x80;0xA8;0;0;2;0x83;0;0]])).
Proof. vm_compute; reflexivity. Qed.

(** ** C34 *)
(** C34 is false for a card that answers 9000 without data: no result is specified
    because uninitialised memory is used (C64). *)
Theorem C34_select_refuted : exists s aid, bytes aid /\ 5 <= Zlen aid <= 16 /\ select_app ex_tr zeros17 s aid = UB.
Proof.
  exists ([[0x90;0]], []), [0xA0;0;0;0;3]. split; [repeat constructor; unfold is_byte; lia|]. split; [vm_compute; intuition discriminate|].
  vm_compute. reflexivity.
Qed.
Print Assumptions C34_select_refuted.
(** C34.  Every other outcome is as specified.  Missing: that case. *)
Theorem C34_select_partial : forall T (x : transport T), wf_transport x -> forall junk, length junk = 17%nat ->
  forall s aid, bytes aid ->
  match select_app x junk s aid with
  | NoFuel => x_select x s aid = NoFuel
  | UB => 5 <= Zlen aid <= 16 /\ exists a, x_select x s aid = Ret a /\ n_ret a = 0 /\ n_sw a = 0x9000 /\ n_data a = []
  | Ret (r, app_, s') =>
    ((Zlen aid < 5 \/ 16 < Zlen aid) /\ r = TAL_INVALID_PARAMETER /\ app_ = None /\ s' = s) \/
    (5 <= Zlen aid <= 16 /\ exists a, x_select x s aid = Ret a /\ s' = n_st a /\
      ((n_ret a <> 0 /\ r = TAL_TTL_FAILURE /\ app_ = None) \/
       (n_ret a = 0 /\ n_sw a <> 0x9000 /\ code_for select_codes TAL_APP_SELECTION_FAILED (n_sw a) r /\ app_ = None) \/
       (n_ret a = 0 /\ n_sw a = 0x9000 /\ app_create_from_fci junk (n_data a) = Ret None /\ r = TAL_APP_FCI_PARSE_FAILED /\ app_ = None) \/
       (n_ret a = 0 /\ n_sw a = 0x9000 /\ exists ap, app_create_from_fci junk (n_data a) = Ret (Some ap) /\
          ((f_val (a_aid ap) <> aid /\ r = TAL_APP_SELECTION_FAILED /\ app_ = None) \/
           (f_val (a_aid ap) = aid /\ r = 0 /\ app_ = Some ap)))))
  end.
Proof. exact @select_app_spec. Qed.
Print Assumptions C34_select_partial.
Example C34_ex :
  match select_app ex_tr zeros17 ([[0x6F;7;0x84;5;0xA0;0;0;0;3;0x90;0]], []) [0xA0;0;0;0;3] with
  | Ret (r, Some a, _) => (r, f_val (a_aid a)) | _ => (1, []) end = (0, [0xA0;0;0;0;3]) /\
  select_app ex_tr zeros17 ([[0x6F;8;0x84;6;0xA0;0;0;0;3;1;0x90;0]], []) [0xA0;0;0;0;3] =
    Ret (TAL_APP_SELECTION_FAILED, None, ([], [[0;0xA4;4;0;5;0xA0;0;0;0;3;0]])) /\
  select_app ex_tr zeros17 ([[0x6A;0x82]], []) [0xA0;0;0;0;3] =
    Ret (TAL_APP_NOT_FOUND, None, ([], [[0;0xA4;4;0;5;0xA0;0;0;0;3;0]])).
Proof. vm_compute; auto. Qed.

(** ** C66 *)
(** C66 is false: a card that always answers with a longer DF name, for an AID with
    partial matching. *)
Theorem C66_find_ends_refuted : exists S (card : cardfn S) s supported,
  respects_buffer card /\ Forall wf_field supported /\
  forall fuel, find_supported_apps (ttl_transport 9 card ModeApdu []) zeros17 fuel s supported [] = NoFuel.
Proof.
  exists unit, (fun s _ => (s, (0, [0x6F;8;0x84;6;0xA0;0;0;0;3;1;0x90;0]))), tt, [mkField 0x9F06 5 [0xA0;0;0;0;3] 1].
  split; [intros [] tx; vm_compute; discriminate|].
  split; [constructor; [|constructor]; repeat split; cbn; try lia; repeat constructor; unfold is_byte; lia|].
  intro fuel. unfold find_supported_apps. set (x := ttl_transport 9 _ _ _).
  assert (E1 : x_select x tt [0xA0;0;0;0;3] = Ret (mkAns 0 [0x6F;8;0x84;6;0xA0;0;0;0;3;1] 0x9000 tt)) by (vm_compute; reflexivity).
  assert (E2 : x_next x tt [0xA0;0;0;0;3] = Ret (mkAns 0 [0x6F;8;0x84;6;0xA0;0;0;0;3;1] 0x9000 tt)) by (vm_compute; reflexivity).
  destruct (app_create_from_fci zeros17 [0x6F;8;0x84;6;0xA0;0;0;0;3;1]) as [[ap|]| |] eqn:Ec; vm_compute in Ec; try discriminate.
  assert (La : f_len (a_aid ap) = 6) by (injection Ec as <-; reflexivity).
  assert (Ec' : app_create_from_fci zeros17 [0x6F;8;0x84;6;0xA0;0;0;0;3;1] = Ret (Some ap)) by (rewrite <- Ec; vm_compute; reflexivity). clear Ec.
  enough (K : forall exact apps, find_loop x zeros17 fuel tt [mkField 0x9F06 5 [0xA0;0;0;0;3] 1] exact apps = NoFuel) by apply K.
  induction fuel as [|fuel IH]; intros exact apps; [reflexivity|]. cbn [find_loop f_val f_len f_flags].
  change (sub [0xA0;0;0;0;3] 0 (Z.to_nat 5)) with (Ret [0xA0;0;0;0;3]). cbn [bind].
  replace (if exact then x_select x tt [0xA0;0;0;0;3] else x_next x tt [0xA0;0;0;0;3]) with (Ret (mkAns 0 [0x6F;8;0x84;6;0xA0;0;0;0;3;1] 0x9000 tt)) by (destruct exact; congruence).
  cbn [bind n_ret n_sw n_st n_data Z.eqb Pos.eqb negb andb]. rewrite Bool.andb_false_r. rewrite Ec'. cbn [bind]. rewrite La. cbn [Z.eqb Pos.eqb]. apply IH.
Qed.
Print Assumptions C66_find_ends_refuted.
(** C66.  Without partial matching one SELECT is sent per configured AID. *)
Theorem C66_find_ends_partial : forall T (x : transport T), wf_transport x -> forall junk, length junk = 17%nat ->
  forall aids fuel s exact apps, Forall wf_field aids -> Forall (fun g => f_flags g <> 1) aids -> (length aids < fuel)%nat ->
  (forall s name, x_select x s name <> NoFuel /\ x_next x s name <> NoFuel) ->
  find_loop x junk fuel s aids exact apps <> NoFuel.
Proof. exact @find_loop_ends. Qed.
Print Assumptions C66_find_ends_partial.
(** The card gives [k] further applications for the name in a row. *)
Inductive goes_on {T} (x : transport T) (name : list Z) : T -> nat -> Prop :=
| go_stop s : goes_on x name s 0
| go_next s a k : x_next x s name = Ret a -> n_ret a = 0 -> n_sw a = 0x9000 \/ n_sw a = 0x6283 -> goes_on x name (n_st a) k -> goes_on x name s (S k).
Lemma find_step T (x : transport T) (W : wf_transport x) junk (Lj : length junk = 17%nat) fuel s aid rest exact apps : wf_field aid ->
  (forall s name, x_select x s name <> NoFuel /\ x_next x s name <> NoFuel) ->
  (forall s apps, find_loop x junk fuel s rest true apps <> NoFuel) ->
  (forall a apps, (exact = false -> x_next x s (f_val aid) = Ret a) -> n_ret a = 0 -> n_sw a = 0x9000 \/ n_sw a = 0x6283 ->
     find_loop x junk fuel (n_st a) (aid :: rest) false apps <> NoFuel) ->
  find_loop x junk (S fuel) s (aid :: rest) exact apps <> NoFuel.
Proof.
  intros Wf Ne Rest Again. cbn [find_loop]. rewrite wf_sub by auto. cbn [bind].
  assert (Q : exists m, (if exact then x_select x s (f_val aid) else x_next x s (f_val aid)) = m /\ m <> NoFuel /\ good_answer m).
  { pose proof W as (W1 & W2 & _). destruct Wf as (_ & Bf & _). destruct (Ne s (f_val aid)). destruct exact; eexists; (split; [reflexivity|]); auto. }
  destruct Q as (m & Em & Nm & Gm). rewrite Em. destruct m as [a| |]; [|discriminate|contradiction]. cbn [bind].
  destruct (Z.eqb_spec (n_ret a) 0) as [R0|R0]; cbn [negb]; [|discriminate].
  destruct (exact && _)%bool; [discriminate|].
  assert (Sw : (negb (n_sw a =? 0x9000) && negb (n_sw a =? 0x6283))%bool = false -> n_sw a = 0x9000 \/ n_sw a = 0x6283).
  { destruct (Z.eqb_spec (n_sw a) 0x9000); [auto|]. destruct (Z.eqb_spec (n_sw a) 0x6283); [auto|]. discriminate. }
  destruct (negb _ && _)%bool; [apply Rest|]. specialize (Sw eq_refl). destruct (Gm R0) as [Bd Ld].
  destruct (list_eq_dec Z.eq_dec (n_data a) []) as [Ee|Ee]; [rewrite Ee; discriminate|].
  destruct (create_fci junk (n_data a) Lj Bd (small256 _ Ld) Ee) as [(ap & t & ts & E & _)|(E & _)]; rewrite E; cbn [bind]; [|apply Rest].
  destruct (_ =? f_len (a_aid ap)); [apply Rest|]. destruct (Z.eqb_spec (f_flags aid) 1); [|apply Rest].
  apply Again; auto. intros ->. exact Em.
Qed.
(** With partial matching it ends for every card that gives at most [n] further applications in a row. *)
Theorem C66_partial_matching_partial : forall T (x : transport T), wf_transport x -> forall junk, length junk = 17%nat ->
  forall aids n fuel s apps, Forall wf_field aids -> (length aids * (n + 2) < fuel)%nat ->
  (forall s name, x_select x s name <> NoFuel /\ x_next x s name <> NoFuel) ->
  (forall s aid k, In aid aids -> goes_on x (f_val aid) s k -> (k <= n)%nat) ->
  find_supported_apps x junk fuel s aids apps <> NoFuel.
Proof.
  intros T x W junk Lj aids n. unfold find_supported_apps.
  induction aids as [|aid rest IH]; intros fuel s apps Wa L Ne Go; (destruct fuel as [|fuel]; [lia|]); [discriminate|].
  inversion Wa as [|? ? Wf Wr]; subst. cbn [length Nat.mul] in L.
  assert (R : forall f s apps, (length rest * (n + 2) < f)%nat -> find_loop x junk f s rest true apps <> NoFuel).
  { intros f s1 ap Lf. apply IH; auto. intros s2 b k Ib. apply Go. right. exact Ib. }
  assert (N : forall m f s apps, (forall k, goes_on x (f_val aid) s k -> (k <= m)%nat) -> (m + 1 + length rest * (n + 2) < f)%nat -> find_loop x junk f s (aid :: rest) false apps <> NoFuel).
  { induction m as [|m IHm]; intros f s1 ap Gm Lf; (destruct f as [|f]; [lia|]); apply find_step; auto; try (intros; apply R; lia); intros a ap' Ea Ra Sw.
    - exfalso. specialize (Gm 1%nat (go_next _ _ _ _ _ (Ea eq_refl) Ra Sw (go_stop _ _ _))). lia.
    - apply IHm; [|lia]. intros k Gk. specialize (Gm (S k) (go_next _ _ _ _ _ (Ea eq_refl) Ra Sw Gk)). lia. }
  apply find_step; auto; [intros; apply R; lia|]. intros a ap' _ _ _. apply (N n); [|lia]. intros k Gk. exact (Go _ aid k (or_introl eq_refl) Gk).
Qed.
Print Assumptions C66_partial_matching_partial.
(** A card with three applications under the name: it gives two further ones, then none. *)
Example C66_ex :
  let card := fun (k : nat) (tx : list Z) => (S k, (0, if Nat.ltb k 3 then [0x6F;8;0x84;6;0xA0;0;0;0;3;Z.of_nat k;0x90;0] else [0x6A;0x82])) in
  let x := ttl_transport 9 card ModeApdu [] in
  goes_on x [0xA0;0;0;0;3] 1%nat 2 /\
  match find_supported_apps x zeros17 9 0%nat [mkField 0x9F06 5 [0xA0;0;0;0;3] 1] [] with
  | Ret (_, apps, k) => map (fun a => f_val (a_aid a)) apps = [[0xA0;0;0;0;3;0]; [0xA0;0;0;0;3;1]; [0xA0;0;0;0;3;2]] /\ k = 4%nat
  | _ => False end.
Proof.
  split; [|vm_compute; split; reflexivity].
  eapply go_next; [vm_compute; reflexivity|reflexivity|left; reflexivity|]. eapply go_next; [vm_compute; reflexivity|reflexivity|left; reflexivity|]. apply go_stop.
Qed.

(** ** C67 *)
(** C67 is false: the AIP pointer refers to a released node if the AFL is missing. *)
Theorem C67_no_dangling_refuted : exists r s',
  get_processing_options ex_tr ([[0x77;4;0x82;2;0x19;0x80;0x90;0]], []) None [] = Ret (r, [], GFreed, GNull, s') /\ r <> 0.
Proof. do 2 eexists. split; [vm_compute; reflexivity|discriminate]. Qed.
Print Assumptions C67_no_dangling_refuted.
(** C67.  Only in that case, and never the AFL pointer. *)
Theorem C67_no_dangling_partial : forall T (x : transport T), wf_transport x -> forall s data l r l' aip afl s',
  match data with Some d => bytes d | None => True end ->
  get_processing_options x s data l = Ret (r, l', aip, afl, s') -> afl <> GFreed /\
  (aip = GFreed -> r = TAL_GPO_FIELD_NOT_FOUND /\ exists a fs, x_gpo x s data = Ret a /\ n_sw a = 0x9000 /\
     gpo_fields false (n_data a) fs /\ ~ absent 0x82 fs /\ absent 0x94 fs).
Proof. exact (fun T x W => gpo_dangling x W zeros17 eq_refl). Qed.
Print Assumptions C67_no_dangling_partial.

(** ** C68 *)
(** C68 is false: a record without octets. *)
Theorem C68_records_safe_refuted : exists S (card : cardfn S) s afl, respects_buffer card /\ bytes afl /\
  read_afl_records (ttl_transport 9 card ModeApdu []) 256 s afl [] = UB.
Proof.
  exists unit, (fun s _ => (s, (0, [0x90;0]))), tt, [8;1;1;0].
  split; [intros [] tx; vm_compute; discriminate|]. split; [repeat constructor; unfold is_byte; lia|]. vm_compute. reflexivity.
Qed.
Print Assumptions C68_records_safe_refuted.
(** C68.  That is the only case. *)
Theorem C68_records_safe_partial : forall T (x : transport T), wf_transport x -> forall afl rfuel s l, bytes afl ->
  read_afl_records x rfuel s afl l = UB -> empty_record x.
Proof. exact @read_afl_ub. Qed.
Print Assumptions C68_records_safe_partial.

(** ** C69 *)
Theorem C69_candidates_selected : forall T (x : transport T), wf_transport x -> forall junk, length junk = 17%nat ->
  forall fuel s aids exact apps r apps' s', Forall wf_field aids ->
  find_loop x junk fuel s aids exact apps = Ret (r, apps', s') ->
  exists new, apps' = apps ++ new /\
    Forall (fun a => exists g data, In g aids /\ selected x (f_val g) data /\ app_create_from_fci junk data = Ret (Some a) /\
      (Zlen (f_val g) = Zlen (f_val (a_aid a)) \/ f_flags g = 1)) new.
Proof. exact @find_loop_sound. Qed.
Print Assumptions C69_candidates_selected.
