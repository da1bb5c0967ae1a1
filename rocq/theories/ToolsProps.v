(** Properties of the tools. *)
From Verif Require Import Base BaseLemmas BerSpec BerModel BerProofs TlvSpec TlvProofs ToolsModel ToolsSpec ToolsProofs.

(** ** C60: hex input *)
Theorem C60_hex_round_trip :
  forall text bs junk, Forall (fun c => c <> 0) text -> hex_of text bs ->
    length junk = ((length text + 1) / 2)%nat ->
    parse_arg text junk = Ret (0, bs ++ skipn (length bs) junk, length bs).
Proof.
  intros text bs junk Hn Hh Hj. unfold parse_arg.
  destruct (parse_hex_result text junk _ Hn (arg_size text) ltac:(lia)) as (r & bs' & E & _ & Hc).
  destruct (Hc bs Hh) as [-> ->]. exact E.
Qed.

(** What is accepted is hex. *)
Theorem C60_hex_accepted :
  forall text junk buf n, Forall (fun c => c <> 0) text ->
    length junk = ((length text + 1) / 2)%nat ->
    parse_arg text junk = Ret (0, buf, n) -> hex_of text (firstn n buf).
Proof.
  intros text junk buf n Hn Hj H. unfold parse_arg in H.
  destruct (parse_hex_result text junk _ Hn (arg_size text) ltac:(lia)) as (r & bs & E & Hr & _).
  rewrite E in H. injection H as -> <- <-. rewrite firstn_length_app.
  destruct Hr as [[_ Hr]|[[Hr _]|[Hr _]]]; [exact Hr|discriminate..].
Qed.

Example C60_ex : (* " 4f\t5A" *)
  parse_arg [32; 52; 102; 9; 53; 65] [0; 0; 0] = Ret (0, [0x4F; 0x5A; 0], 2%nat) /\
  hex_of [32; 52; 102; 9; 53; 65] [0x4F; 0x5A].
Proof.
  split; [vm_compute; reflexivity|].
  apply (hex_pair [32] 52 4 [] 102 15 [9; 53; 65] [0x5A]); try (unfold xdigit; lia);
    [repeat constructor; cbn; tauto|constructor|].
  apply (hex_pair [9] 53 5 [] 65 10 [] []); try (unfold xdigit; lia);
    [repeat constructor; cbn; tauto|constructor|constructor].
Qed.

(** ** C87: hex input that is refused *)
(** Missing for the full claim: texts ending in white space. *)
Theorem C87_hex_refused_partial :
  forall text junk, Forall (fun c => c <> 0) text ->
    length junk = ((length text + 1) / 2)%nat ->
    exists r buf n, parse_arg text junk = Ret (r, buf, n) /\ length buf = length junk /\
      (r < 0 <-> ~ hexish text) /\
      (r > 0 <-> hexish text /\ forall bs, ~ hex_of text bs).
Proof.
  intros text junk Hn Hj. unfold parse_arg.
  destruct (parse_hex_result text junk _ Hn (arg_size text) ltac:(lia)) as (r & bs & E & Hr & Hc).
  exists r, (bs ++ skipn (length bs) junk), (length bs). split; [exact E|].
  assert (Hlen : (length bs <= length junk)%nat).
  { assert (X : forall f s i m b n r b' n', hex_loop f s i m b n = Ret (r, b', n') ->
                (n <= length b -> n' <= length b')%nat /\ length b' = length b).
    { induction f as [|f IH]; intros s i m b n r0 b' n' H; [discriminate|]. cbn [hex_loop] in H.
      destruct (rd s i) as [c| |]; try discriminate. cbn [bind] in H.
      destruct ((c =? 0) || Nat.eqb m 0)%bool; [injection H as <- <- <-; auto|].
      destruct (hex_two _ _ _ _ _) as [[[[i' str] k]|]| |]; try discriminate; cbn [bind] in H;
        [|injection H as <- <- <-; auto].
      destruct (negb (Nat.eqb k 2)); [injection H as <- <- <-; auto|].
      destruct (wr str 2 0) as [str'| |]; try discriminate. cbn [bind] in H.
      destruct (strtoul16 str') as [v| |]; try discriminate. cbn [bind] in H.
      destruct (wr b n (u8 v)) as [b2| |] eqn:Ew; try discriminate. cbn [bind] in H.
      apply wr_inv in Ew. destruct Ew as [Hlt ->]. apply IH in H. rewrite upd_length in H.
      destruct H as [H1 H2]. split; [intros; apply H1; lia|exact H2]. }
    unfold parse_hex in E. apply X in E. destruct E as [E1 E2]. rewrite <- E2. apply E1. lia. }
  split; [rewrite app_length, skipn_length; lia|].
  destruct Hr as [[-> Hh]|[[-> Hh]|[-> Hh]]].
  - assert (Hx : hexish text).
    { clear -Hh. induction Hh as [|sp1 a va sp2 b vb t bs H1 H2 Ha Hb Ht IH]; [constructor|].
      apply Forall_app. split; [eapply Forall_impl; [|exact H1]; intros; left; assumption|].
      constructor; [right; eauto|]. apply Forall_app.
      split; [eapply Forall_impl; [|exact H2]; intros; left; assumption|].
      constructor; [right; eauto|exact IH]. }
    split; (split; [lia|]); [contradiction|]. intros [_ H]. exfalso. eapply H; eauto.
  - split; (split; [|intros; try lia]); [intros; assumption|lia|destruct H; contradiction].
  - split; (split; [intros|intros; try lia]).
    + lia.
    + contradiction.
    + split; [exact Hh|]. intros bs' Hb'. destruct (Hc bs' Hb'). discriminate.
Qed.

(** "41 " has an even number of hex digits and is refused. *)
Theorem C87_trailing_space_refuted :
  exists text junk buf n, hex_of text [0x41] /\ space 32 /\
    length junk = ((length (text ++ [32%Z]) + 1) / 2)%nat /\ parse_arg (text ++ [32]) junk = Ret (1, buf, n).
Proof.
  exists [52; 49], [0; 0]. do 2 eexists. split; [|split; [cbn; tauto|split; [reflexivity|vm_compute; reflexivity]]].
  apply (hex_pair [] 52 4 [] 49 1 [] []); try (unfold xdigit; lia); constructor.
Qed.

Example C87_ex : (* "4g" and "412" *)
  parse_arg [52; 103] [0] = Ret (-2, [0], 0%nat) /\ parse_arg [52; 49; 50] [0; 0] = Ret (1, [0x41; 0], 1%nat).
Proof. split; vm_compute; reflexivity. Qed.

(** ** C88: input from a file *)
Theorem C88_file_loaded :
  forall content junk, exists extra,
    load_from_file (S (length content)) file_stream junk content =
    Ret (Some (content ++ extra, length content)).
Proof. exact load_file. Qed.
(** Whatever the stream does, the buffer is not overrun. *)
Theorem C88_load_safe :
  forall St (fread : stream St) fuel junk s,
    (forall s n, (length (fst (fst (fst (fread s n)))) <= n)%nat) ->
    load_from_file fuel fread junk s <> UB /\
    (forall b n, load_from_file fuel fread junk s = Ret (Some (b, n)) -> (n <= length b)%nat).
Proof. intros. apply load_safe; auto. Qed.
Example C88_ex : exists extra, load_from_file 3 file_stream 0 [1; 2] = Ret (Some ([1; 2] ++ extra, 2%nat)).
Proof. apply (load_file [1; 2] 0). Qed.

(** ** C89: dumps account for every octet *)
Theorem C89_ber_dump_complete :
  forall buf d ign evs, bytes buf -> small buf -> print_ber_buf buf d ign = Ret evs ->
    exists ps, Forall2 shows evs ps /\ concat ps = buf.
Proof. intros buf d ign evs. apply dump_all. Qed.
Theorem C89_emv_dump_complete :
  forall info buf d ign, bytes buf -> small buf ->
    exists evs ps, print_emv_buf info buf d ign = Ret evs /\ Forall2 shows evs ps /\ concat ps = buf.
Proof.
  intros info buf d ign Hb Hs.
  destruct (dump_total (fun t => Ret (inl (NInfo (info (b_tag t) (b_val t))))) ltac:(discriminate)
    (S (length buf)) buf buf 0 d ign Hb Hs ltac:(lia)) as [(evs & e & E)|(_ & _ & _ & _ & t & _ & _ & _ & X)];
    [|discriminate].
  assert (H : exists evs', print_emv_buf info buf d ign = Ret evs').
  { unfold print_emv_buf, dump, ber_itr_init. rewrite E. cbn [bind]. eauto. }
  destruct H as (evs' & H). destruct (dump_all _ _ _ _ _ Hb Hs H) as (ps & H1 & H2). eauto.
Qed.
Example C89_ex :
  print_ber_buf [0x30; 0x03; 0x02; 0x01; 0x05; 0x80] 0 false =
  Ret [ENode 0 0x30 3; ELeaf 1 0x02 [5] NNone; EErr (-2); ERest 5 [0x80]].
Proof. vm_compute. reflexivity. Qed.

(** ** C90: well-formed data is listed as it is nested *)
Theorem C90_ber_dump_nested_partial :
  forall buf d ign evs, small buf -> listing ber_note d buf evs -> print_ber_buf buf d ign = Ret evs.
Proof.
  intros buf d ign evs Hs Hl. unfold print_ber_buf, dump, ber_itr_init.
  rewrite (dump_listing ber_leaf ber_note ber_leaf_note d buf evs Hl (S (length buf)) buf 0 ign Hs)
    by (unfold Zlen; lia).
  cbn [bind]. pose proof (Zlen_nonneg buf). destruct (Z.ltb_spec (Zlen buf) 0); [lia|].
  rewrite Z.ltb_irrefl, andb_false_r. cbn [app]. now rewrite app_nil_r.
Qed.
Theorem C90_emv_dump_nested :
  forall info buf d ign evs, small buf ->
    listing (fun tag v n => n = NInfo (info tag v)) d buf evs ->
    print_emv_buf info buf d ign = Ret evs.
Proof.
  intros info buf d ign evs Hs Hl. unfold print_emv_buf, dump, ber_itr_init.
  rewrite (dump_listing _ (fun tag v n => n = NInfo (info tag v))) with (evs := evs);
    [|intros t n -> _; reflexivity|exact Hl|exact Hs|lia|unfold Zlen; lia].
  cbn [bind]. pose proof (Zlen_nonneg buf). destruct (Z.ltb_spec (Zlen buf) 0); [lia|].
  rewrite Z.ltb_irrefl, andb_false_r. cbn [app]. now rewrite app_nil_r.
Qed.
(** An object identifier of 40 octets is valid BER, but what comes after it is
    called invalid. *)
Theorem C90_after_long_oid_refuted :
  exists buf ts evs, forest true buf ts /\ length ts = 2%nat /\ print_ber_buf buf 0 false = Ret evs /\
    In (ERest 42 [0x02; 0x01; 0x05]) evs.
Proof.
  set (v := 0x2A :: repeat 0x81 38 ++ [0x01]).
  exists ([0x06; 40] ++ v ++ [0x02; 0x01; 0x05]), [Leaf 6 v; Leaf 2 [5]]. eexists.
  split; [|split; [reflexivity|split; [vm_compute; reflexivity|cbn; tauto]]].
  replace ([0x06; 40] ++ v ++ [0x02; 0x01; 0x05]) with (([0x06; 40] ++ v) ++ ([0x02; 0x01; 0x05] ++ []))
    by reflexivity.
  assert (Hv : bytes v).
  { subst v. constructor; [unfold is_byte; lia|]. apply bytes_app_intro.
    - apply Forall_forall. intros x Hx. apply repeat_spec in Hx. subst. unfold is_byte; lia.
    - repeat constructor; unfold is_byte; lia. }
  apply (fo_leaf true _ 6 0 v); [|reflexivity|apply (fo_leaf true _ 2 0 [5]); [|reflexivity|constructor]].
  - split; [exact Hv|]. exists [0x06], [40]. split; [reflexivity|]. split; [|split; [reflexivity|split; [|reflexivity]]].
    + apply id_low; [unfold is_byte; lia|vm_compute; discriminate].
    + change (Zlen v) with 40. apply len_short. lia.
  - split; [repeat constructor; unfold is_byte; lia|]. exists [0x02], [1]. split; [reflexivity|].
    split; [|split; [reflexivity|split; [|reflexivity]]].
    + apply id_low; [unfold is_byte; lia|vm_compute; discriminate].
    + change (Zlen [5]) with 1. apply len_short. lia.
Qed.
Example C90_ex : exists evs, listing ber_note 0 [0x30; 0x05; 0x06; 0x03; 0x2A; 0x86; 0x48] evs /\
  evs = [ENode 0 0x30 5; ELeaf 1 6 [0x2A; 0x86; 0x48] (NOid [1; 2; 840])].
Proof.
  eexists. split; [|reflexivity].
  apply (li_node ber_note 0 [0x30; 0x05; 0x06; 0x03; 0x2A; 0x86; 0x48] 0x30 32 [0x06; 0x03; 0x2A; 0x86; 0x48]
    [ELeaf 1 6 [0x2A; 0x86; 0x48] (NOid [1; 2; 840])] [] []); [|reflexivity| |constructor].
  - split; [repeat constructor; unfold is_byte; lia|]. exists [0x30], [5].
    split; [reflexivity|]. split; [apply id_low; [unfold is_byte; lia|vm_compute; discriminate]|]. split; [reflexivity|]. split; [apply (len_short 5); lia|reflexivity].
  - apply (li_leaf ber_note 1 [0x06; 0x03; 0x2A; 0x86; 0x48] 6 0 [0x2A; 0x86; 0x48] _ [] []); [|reflexivity| |constructor].
    + split; [repeat constructor; unfold is_byte; lia|]. exists [0x06], [3].
      split; [reflexivity|]. split; [apply id_low; [unfold is_byte; lia|vm_compute; discriminate]|]. split; [reflexivity|]. split; [apply (len_short 3); lia|reflexivity].
    + right; right; left. split; [reflexivity|]. exists [1; 2; 840].
      split; [|split; [unfold Zlen; cbn; lia|split; [unfold Zlen; cbn; lia|reflexivity]]].
      exists 0x2A, 1, 2, [[0x86; 0x48]], [840]. repeat (split; [first [reflexivity|lia]|]).
      repeat constructor. exists [0x86], 0x48. repeat split; try lia; try reflexivity. repeat constructor; lia.
Qed.

(** ** C91: dumping any input *)
(** Missing for the full claim: object identifiers of more than ten arcs. *)
Theorem C91_ber_dump_safe_partial :
  forall buf d ign, bytes buf -> small buf ->
    (exists evs, print_ber_buf buf d ign = Ret evs) \/
    (print_ber_buf buf d ign = UB /\ exists pre enc post flags v, buf = pre ++ enc ++ post /\
       encodes enc 6 flags v /\ (10 < 2 + subid_count (tl v))%nat /\ (length v < 40)%nat).
Proof.
  intros buf d ign Hb Hs. unfold print_ber_buf, dump, ber_itr_init.
  destruct (dump_total ber_leaf) with (fuel := S (length buf)) (buf := buf) (itr := buf) (valid := 0)
    (d := d) (ign := ign) as [(evs & e & ->)|(-> & pre & enc & post & t & E & He & Hl & Hu)]; auto.
  - intros t Hbt Hlt. destruct (ber_leaf_total t Hbt Hlt) as [(x & ->)|(-> & _)]; discriminate.
  - left. cbn [bind]. eauto.
  - right. split; [reflexivity|]. exists pre, enc, post, (b_flags t), (b_val t). split; [exact E|].
    destruct (ber_leaf_total t (enc_value_bytes _ _ _ _ He) Hl) as [(x & Hx)|(_ & Ht & H1 & H2)]; [congruence|].
    rewrite Ht in He. split; [exact He|]. split; lia.
Qed.
Theorem C91_many_arcs_refuted :
  exists buf, bytes buf /\ small buf /\ print_ber_buf buf 0 false = UB.
Proof.
  exists ([0x06; 10; 0x2A] ++ repeat 1 9). split; [|split; [unfold small, Zlen; cbn; lia|vm_compute; reflexivity]].
  repeat constructor; unfold is_byte; lia.
Qed.
Example C91_ex : exists evs, print_ber_buf [0x1F; 0xFF; 0x80] 2 true = Ret evs /\ evs <> [].
Proof. eexists. split; [vm_compute; reflexivity|discriminate]. Qed.

(** ** C92: debug events are filtered *)
Theorem C92_debug_filter :
  forall before s lv ty msg data sec ns m l f,
    in_force before m l f ->
    let ev := DEvent s lv ty msg data sec ns in
    (forall fn txt, f = Some fn -> Z.land m s <> 0 -> lv <= l -> msg = Some txt ->
       exists t x, debug_run dbg0 (before ++ [ev]) = debug_run dbg0 before ++ [mkdel fn t s lv ty x data] /\
         0 <= t < 4294967296 /\ (exists k, sec * 1000000 + ns / 1000 = t + k * 4294967296) /\
         (Zlen txt <= 1023 -> x = txt) /\ (1023 < Zlen txt -> Zlen x = 1023 /\ exists y, txt = x ++ y)) /\
    (f = None \/ Z.land m s = 0 \/ l < lv \/ msg = None ->
       debug_run dbg0 (before ++ [ev]) = debug_run dbg0 before).
Proof.
  intros before s lv ty msg data sec ns m l f H ev. rewrite debug_run_app, (in_force_state _ _ _ _ H).
  subst ev. cbn [debug_run debug_step d_func d_mask d_level]. split.
  - intros fn txt -> Hm Hl ->. destruct (Z.eqb_spec (Z.land m s) 0); [contradiction|].
    destruct (Z.ltb_spec l lv); [lia|]. do 2 eexists. split; [reflexivity|].
    split; [apply u32_range|]. split.
    { exists ((sec * 1000000 + ns / 1000) / 4294967296). unfold u32.
      pose proof (Z.div_mod (sec * 1000000 + ns / 1000) 4294967296). lia. }
    split.
    + intros Hx. apply firstn_all2. unfold Zlen in Hx. lia.
    + intros Hx. unfold Zlen in *. rewrite firstn_length. split; [lia|].
      exists (skipn (Z.to_nat 1023) txt). symmetry. apply firstn_skipn.
  - intros D. rewrite app_nil_r. destruct f as [fn|]; [|now rewrite app_nil_r].
    destruct (Z.eqb_spec (Z.land m s) 0); [now rewrite app_nil_r|].
    destruct (Z.ltb_spec l lv); [now rewrite app_nil_r|].
    destruct D as [D|[D|[D| ->]]]; [discriminate|contradiction|lia|now rewrite app_nil_r].
Qed.
(** Every history has a filter in force, and setting it delivers nothing. *)
Theorem C92_debug_history :
  (forall cs, exists m l f, in_force cs m l f) /\
  (forall before m l f, debug_run dbg0 (before ++ [DInit m l f]) = debug_run dbg0 before).
Proof.
  split; [exact in_force_total|]. intros. rewrite debug_run_app. cbn. apply app_nil_r.
Qed.
Example C92_ex :
  debug_run dbg0 [DEvent 1 1 1 (Some [65]) [] 0 0; DInit 0x05 2 (Some 9%nat); DEvent 4 2 1 (Some [66]) [7] 1 5000;
                  DEvent 2 1 1 (Some [67]) [] 1 0; DEvent 1 3 1 (Some [68]) [] 1 0] =
  [mkdel 9 1000005 4 2 1 [66] [7]].
Proof. vm_compute. reflexivity. Qed.

Print Assumptions C60_hex_round_trip.
Print Assumptions C60_hex_accepted.
Print Assumptions C87_hex_refused_partial.
Print Assumptions C87_trailing_space_refuted.
Print Assumptions C88_file_loaded.
Print Assumptions C88_load_safe.
Print Assumptions C89_ber_dump_complete.
Print Assumptions C89_emv_dump_complete.
Print Assumptions C90_ber_dump_nested_partial.
Print Assumptions C90_emv_dump_nested.
Print Assumptions C90_after_long_oid_refuted.
Print Assumptions C91_ber_dump_safe_partial.
Print Assumptions C91_many_arcs_refuted.
Print Assumptions C92_debug_filter.
Print Assumptions C92_debug_history.
