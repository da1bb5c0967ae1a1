(** Properties of emv-tool. *)
From Coq Require Import String Permutation.
From Verif Require Import Base BaseLemmas BerSpec TlvListModel TlvSpec StrModel StrSpec FlagsSpec ToolsModel ToolsSpec ToolsProofs ToolsProps DolSpec AppModel AppSpec AppProps
  TtlModel TtlSpec AtrModel FlagsTexts PcscModel PcscSpec PcscProofs PcscProps TalModel TalSpec TalProps EmvModel EmvSpec EmvProofs EmvWire EmvProps TermModel TermSpec TermProofs TermReaders TermSession.
Open Scope string_scope.
Open Scope Z_scope.
Open Scope list_scope.
Notation length := List.length.

(** ** C129 *)
Theorem C129_type : forall s d e, 0 <= d <= 9 -> 0 <= e <= 9 ->
  parse_option s (TxnType (chars [d; e])) = Accepted (mkSettings (d * 16 + e) (o_amount s) (o_other s) (o_verbose s) (o_sources s) (o_level s)).
Proof. exact type_digits. Qed.
Theorem C129_amount : forall s ds, digits ds -> ds <> [] ->
  parse_option s (TxnAmount (chars ds)) =
    (if number ds <=? 0xFFFFFFFF then Accepted (mkSettings (o_type s) (number ds) (o_other s) (o_verbose s) (o_sources s) (o_level s))
     else Rejected (lit "Transaction amount (--txn-amount) argument must fit in a 32-bit field")) /\
  parse_option s (TxnAmountOther (chars ds)) =
    (if number ds <=? 0xFFFFFFFF then Accepted (mkSettings (o_type s) (o_amount s) (number ds) (o_verbose s) (o_sources s) (o_level s))
     else Rejected (lit "Secondary transaction amount (--txn-amount-other) argument must fit in a 32-bit field")).
Proof.
  intros s ds D N. split; [exact (amount_digits txn_amount_name (fun v => mkSettings (o_type s) v (o_other s) (o_verbose s) (o_sources s) (o_level s)) ds D N)|].
  exact (amount_digits txn_amount_other_name (fun v => mkSettings (o_type s) (o_amount s) v (o_verbose s) (o_sources s) (o_level s)) ds D N).
Qed.
(** What is accepted.  Missing: that it is digits. *)
Theorem C129_type_accepted_partial : forall s arg s', parse_option s (TxnType arg) = Accepted s' ->
  exists v, s' = mkSettings v (o_amount s) (o_other s) (o_verbose s) (o_sources s) (o_level s) /\
  ((exists a b d e, arg = [a; b] /\ hex_char a d /\ hex_char b e /\ v = d * 16 + e) \/
   (exists a b e, arg = [a; b] /\ (space a \/ a = 0x2B) /\ hex_char b e /\ v = e) \/
   (exists b e, arg = [0x2D; b] /\ hex_char b e /\ v = (256 - e) mod 256)).
Proof. exact type_accepted. Qed.
Theorem C129_amount_accepted_partial : forall s arg s',
  (parse_option s (TxnAmount arg) = Accepted s' \/ parse_option s (TxnAmountOther arg) = Accepted s') ->
  exists minus pre ds v, arg = pre ++ chars ds /\ signed minus pre /\ digits ds /\ ds <> [] /\
    (s' = mkSettings (o_type s) v (o_other s) (o_verbose s) (o_sources s) (o_level s) \/ s' = mkSettings (o_type s) (o_amount s) v (o_verbose s) (o_sources s) (o_level s)) /\
    0 <= v <= 0xFFFFFFFF /\ number ds < 18446744073709551616 /\ v = (if minus then - number ds else number ds) mod 18446744073709551616.
Proof.
  intros s arg s' [H|H]; apply amount_accepted in H; destruct H as (m & pre & ds & E & Sg & D & N & v & V & -> & W & B); exists m, pre, ds, v; auto 12.
Qed.
(** Other texts than two digits, or digits, are accepted. *)
Theorem C129_type_refuted : exists arg s', (forall ds, digits ds -> arg <> chars ds) /\
  parse_option settings0 (TxnType arg) = Accepted s' /\ o_type s' = 0xFF.
Proof.
  exists (lit "-1"). eexists. split; [|split; [vm_compute; reflexivity|reflexivity]].
  intros [|d ds] D E; [discriminate|]. apply (f_equal (hd 0)) in E. inversion D; subst. change (45 = 48 + d) in E. lia.
Qed.
Theorem C129_amount_refuted : exists arg s', (forall ds, digits ds -> arg <> chars ds) /\
  parse_option settings0 (TxnAmount arg) = Accepted s' /\ o_amount s' = 1.
Proof.
  exists (lit "-18446744073709551615"). eexists. split; [|split; [vm_compute; reflexivity|reflexivity]].
  intros [|d ds] D E; [discriminate|]. apply (f_equal (hd 0)) in E. inversion D; subst. change (45 = 48 + d) in E. lia.
Qed.
Example C129_ex :
  parse_options settings0 [TxnType (lit "09"); TxnAmount (lit "12345"); TxnAmountOther (lit "1000")] = Accepted (mkSettings 0x09 12345 1000 false 0xFF 2) /\
  parse_option settings0 (TxnAmount (lit "4294967296")) = Rejected (lit "Transaction amount (--txn-amount) argument must fit in a 32-bit field") /\
  parse_option settings0 (TxnType (lit "9")) = Rejected (lit "Transaction type (--txn-type) argument must be 2 numeric digits") /\
  parse_option settings0 (TxnAmount (lit "12.00")) = Rejected (lit "Transaction amount (--txn-amount) argument must be numeric digits").
Proof. repeat split; vm_compute; reflexivity. Qed.

(** ** C130 *)
(** Names of sources, in any case, separated by commas.  Missing: ALL. *)
Theorem C130_sources_partial : forall s picks ns, incl picks debug_sources -> Forall2 (fun p n => spelled (fst p) n) picks ns ->
  exists m, parse_option s (DebugSource (separated ns)) = Accepted (mkSettings (o_type s) (o_amount s) (o_other s) (o_verbose s) m (o_level s)) /\
    0 <= m < 16 /\ forall p, In p debug_sources -> (Z.land m (snd p) <> 0 <-> In p picks).
Proof.
  intros s picks ns I F. cbn [parse_option]. rewrite comma_separated.
  2: { clear s. induction F as [|[name v] n picks ns S F IH]; [constructor|]. constructor; [|apply IH; intros p Q; apply I; right; exact Q].
       apply (spelled_word name); [|exact S]. specialize (I _ (or_introl eq_refl)). cbn [debug_sources In] in I. cbn [debug_source_str debug_level_str app In]. 
       repeat (destruct I as [I|I]; [injection I as <- _; tauto|]). destruct I. }
  destruct (mask_sources picks ns I F 0 ltac:(lia)) as (m & E & B & L). rewrite E. exists m. split; [reflexivity|]. split; [exact B|].
  intros p Ip. rewrite L. split.
  - intros [K|(q & Iq & K)]; [destruct (K eq_refl)|]. apply sources_distinct in K; [subst; exact Iq|exact (I q Iq)|exact Ip].
  - intros K. right. exists p. split; [exact K|]. apply sources_distinct; auto.
Qed.
(** Any other name but ALL is refused. *)
Theorem C130_sources_refused : forall s ns n, Forall word ns -> In n ns -> (forall name, In name ["TTL"; "TAL"; "EMV"; "APP"; "ALL"] -> ~ spelled name n) ->
  exists n', In n' ns /\ (forall name, In name ["TTL"; "TAL"; "EMV"; "APP"; "ALL"] -> ~ spelled name n') /\
    parse_option s (DebugSource (separated ns)) = Rejected (lit "Unknown debug source (--debug-source) argument " ++ [0x22] ++ n' ++ [0x22]).
Proof.
  intros s ns n F I N. cbn [parse_option]. rewrite (comma_separated ns F). destruct (mask_unknown ns 0) as [(m & E)|(n' & I' & E & N')].
  - destruct (mask_unknown_in ns n I N 0 m E).
  - exists n'. rewrite E. split; [exact I'|]. split; [exact N'|reflexivity].
Qed.
(** ALL is accepted and then no event of any source is shown, at any level. *)
Theorem C130_all_refuted : forall s, exists s', parse_option s (DebugSource (lit "ALL")) = Accepted s' /\
  forall level f (evs : list dcall), Forall (fun e => exists p lv ty msg data sec ns, In p debug_sources /\ e = DEvent (snd p) lv ty msg data sec ns) evs ->
    debug_run dbg0 (DInit (o_sources s') level f :: evs) = [].
Proof.
  intros s. eexists. split; [vm_compute; reflexivity|]. cbn [o_sources]. intros level f evs F. cbn [debug_run debug_step app].
  induction F as [|e evs (p & lv & ty & msg & data & sec & ns & Ip & ->) F IH]; [reflexivity|]. cbn [debug_run debug_step d_func d_mask].
  assert (Q : Z.land 16 (snd p) = 0) by (cbn [debug_sources In] in Ip; repeat (destruct Ip as [<-|Ip]; [reflexivity|]); destruct Ip).
  rewrite Q. change (0 =? 0) with true. cbv iota. destruct f; exact IH.
Qed.
(** Without the option all are. *)
Theorem C130_default : forall p, In p debug_sources -> Z.land (o_sources settings0) (snd p) <> 0.
Proof. intros p Ip. cbn [debug_sources In] in Ip. repeat (destruct Ip as [<-|Ip]; [vm_compute; discriminate|]). destruct Ip. Qed.
Theorem C130_level : forall s n,
  (forall name v, In (name, v) debug_levels -> spelled name n ->
     parse_option s (DebugLevel n) = Accepted (mkSettings (o_type s) (o_amount s) (o_other s) (o_verbose s) (o_sources s) v)) /\
  ((forall name v, In (name, v) debug_levels -> ~ spelled name n) ->
     parse_option s (DebugLevel n) = Rejected (lit "Unknown debug level (--debug-level) argument " ++ [0x22] ++ n ++ [0x22])).
Proof.
  intros s n. cbn [parse_option]. split.
  - intros name v I S. rewrite (index_level name v n I S). reflexivity.
  - intros N. rewrite (index_none debug_level_str n); [reflexivity|intros ? ?; apply in_or_app; right; assumption|].
    intros name I S. cbn [debug_level_str In] in I. repeat (destruct I as [<-|I]; [refine (N _ _ _ S); cbn [debug_levels In]; eauto 10|]). destruct I.
Qed.
Example C130_ex :
  parse_options settings0 [DebugSource (lit "ttl,Emv"); DebugLevel (lit "trace"); DebugVerbose] = Accepted (mkSettings 0 0 0 true 5 4) /\
  parse_option settings0 (DebugSource (lit "TTL,KERNEL")) = Rejected (lit "Unknown debug source (--debug-source) argument " ++ [0x22] ++ lit "KERNEL" ++ [0x22]).
Proof. split; vm_compute; reflexivity. Qed.

(** ** C131 *)
Theorem C131_parameters : forall buf t seq type amount other, length buf = 6%nat -> calendar t -> 0 <= seq < 100000000 -> is_byte type ->
  0 <= amount < 4294967296 -> 0 <= other < 4294967296 ->
  exists fs, load_params buf t seq type amount other = Ret fs /\ length fs = 10%nat /\
    holds fs 0x9C [type] /\ holds fs 0x5F2A [0x09; 0x78] /\ holds fs 0x5F36 [0x02] /\
    (exists v, holds fs 0x9F41 v /\ in_format_n 4 seq v) /\
    (exists y m d, holds fs 0x9A [y; m; d] /\ in_format_n 1 (tm_year t mod 100) [y] /\ in_format_n 1 (tm_mon t + 1) [m] /\ in_format_n 1 (tm_mday t) [d]) /\
    (exists h m s, holds fs 0x9F21 [h; m; s] /\ in_format_n 1 (tm_hour t) [h] /\ in_format_n 1 (tm_min t) [m] /\ in_format_n 1 (tm_sec t) [s]) /\
    (exists v, holds fs 0x9F02 v /\ in_format_n 6 amount v) /\ (exists v, holds fs 0x81 v /\ in_format_b 4 amount v) /\
    (exists v, holds fs 0x9F03 v /\ in_format_n 6 other v) /\ (exists v, holds fs 0x9F04 v /\ in_format_b 4 other v).
Proof. exact load_params_holds. Qed.
(** From the command line: what is typed for the type and the amounts is what the card will be given. *)
Theorem C131_typed : forall d e ds1 ds2 buf t, 0 <= d <= 9 -> 0 <= e <= 9 -> digits ds1 -> digits ds2 -> ds1 <> [] -> ds2 <> [] ->
  number ds1 < 4294967296 -> number ds2 < 4294967296 -> length buf = 6%nat -> calendar t ->
  exists s fs n1 n2 b1 b2, parse_options settings0 [TxnType (chars [d; e]); TxnAmount (chars ds1); TxnAmountOther (chars ds2)] = Accepted s /\
    load_params buf t 42 (o_type s) (o_amount s) (o_other s) = Ret fs /\
    holds fs 0x9C [d * 16 + e] /\ holds fs 0x9F02 n1 /\ in_format_n 6 (number ds1) n1 /\ holds fs 0x81 b1 /\ in_format_b 4 (number ds1) b1 /\
    holds fs 0x9F03 n2 /\ in_format_n 6 (number ds2) n2 /\ holds fs 0x9F04 b2 /\ in_format_b 4 (number ds2) b2.
Proof.
  intros d e ds1 ds2 buf t D E D1 D2 N1 N2 L1 L2 L C. cbn [parse_options]. rewrite (C129_type _ d e D E). rewrite (proj1 (C129_amount _ ds1 D1 N1)).
  destruct (Z.leb_spec (number ds1) 0xFFFFFFFF); [|lia]. rewrite (proj2 (C129_amount _ ds2 D2 N2)). destruct (Z.leb_spec (number ds2) 0xFFFFFFFF); [|lia].
  eexists. cbn [o_type o_amount o_other o_verbose o_sources o_level].
  destruct (C131_parameters buf t 42 (d * 16 + e) (number ds1) (number ds2) L C) as (fs & F & _ & H1 & _ & _ & _ & _ & _ & (v1 & A1 & B1) & (v2 & A2 & B2) & (v3 & A3 & B3) & (v4 & A4 & B4));
    [lia|unfold is_byte; lia|split; [apply number_nonneg; assumption|lia]|split; [apply number_nonneg; assumption|lia]|].
  exists fs, v1, v3, v2, v4. split; [reflexivity|]. auto 20.
Qed.
Example C131_ex : load_params (repeat 0xAA 6) (mkTm 126 10 16 15 25 7) 42 0x09 12345 1000 =
  Ret [fld 0x9F41 [0;0;0;0x42] 0; fld 0x9A [0x26;0x11;0x16] 0; fld 0x9F21 [0x15;0x25;0x07] 0; fld 0x5F2A [9;0x78] 0; fld 0x5F36 [2] 0; fld 0x9C [9] 0;
       fld 0x9F02 [0;0;0;1;0x23;0x45] 0; fld 0x81 [0;0;0x30;0x39] 0; fld 0x9F03 [0;0;0;0;0x10;0] 0; fld 0x9F04 [0;0;3;0xE8] 0].
Proof. vm_compute. reflexivity. Qed.

(** ** C132 *)
Theorem C132_messages_partial : forall s,
  (In (lit "Transaction amount (--txn-amount) argument must be non-zero") (amount_checks s) <-> o_type s <> 0x30 /\ o_amount s = 0) /\
  (In (lit "Secondary transaction amount (--txn-amount-other) must be non-zero for cashback transaction") (amount_checks s) <-> o_type s = 0x09 /\ o_other s = 0) /\
  (amount_checks s = [] <-> (o_type s = 0x30 \/ o_amount s <> 0) /\ (o_type s <> 0x09 \/ o_other s <> 0)).
Proof.
  intros s. unfold amount_checks. assert (D : lit "Transaction amount (--txn-amount) argument must be non-zero" <>
    lit "Secondary transaction amount (--txn-amount-other) must be non-zero for cashback transaction") by (intros E; apply (f_equal (@List.length Z)) in E; vm_compute in E; discriminate).
  destruct (Z.eqb_spec (o_type s) 0x30), (Z.eqb_spec (o_amount s) 0), (Z.eqb_spec (o_type s) 0x09), (Z.eqb_spec (o_other s) 0);
    cbn [negb andb app In]; intuition (try congruence; try lia).
Qed.
(** A card with one application, whose PDOL asks for the amount. *)
Definition t_time : tm := mkTm 126 10 16 15 25 7.
Definition t_fci : list Z := [0x6F;20;0x84;7;0xA0;0;0;0;3;0x10;0x10;0xA5;9;0x50;1;0x56;0x9F;0x38;3;0x9F;2;6;0x90;0].
Definition t_script : list (list Z) :=
  [[0x6A;0x82]; t_fci; [0x6A;0x82]; [0x6A;0x82]; [0x6A;0x82]; [0x6A;0x82]; [0x6A;0x82]; t_fci; [0x80;6;0x19;0x80;8;1;1;0;0x90;0];
   [0x70;13;0x5F;0x24;0;0x5A;1;9;0x8C;0;0x8D;0;0x57;1;1;0x90;0]].
Definition t_card : presented := mkPresented 0 TYPE_CONTACT (Some [0x3B; 0x60; 0x00; 0x00]).
(** C132 is false: the amount that must not be zero is sent to the card. *)
Theorem C132_zero_refuted : exists opts ev rest log,
  tool ex_tr zeros17 gbuf 30 5 (t_script, []) t_time opts t_card [] =
    ([lit "Transaction amount (--txn-amount) argument must be non-zero"], Ret (ev, (rest, log))) /\
  In [0x80; 0xA8; 0; 0; 8; 0x83; 6; 0; 0; 0; 0; 0; 0; 0] log /\ In icc_line ev.
Proof.
  exists [TxnType (lit "00"); TxnAmount (lit "0")]. do 3 eexists. split; [vm_compute; reflexivity|]. split; vm_compute; auto 20.
Qed.

(** ** C133 *)
Theorem C133_supported : forall aid, wf_field aid -> exists b, app_is_supported aid tool_aids = Ret b /\
  (b = true <-> (exists rest, f_val aid = [0xA0; 0; 0; 0; 0x03; 0x10] ++ rest) \/ f_val aid = [0xA0; 0; 0; 0; 0x03; 0x20; 0x10] \/ f_val aid = [0xA0; 0; 0; 0; 0x03; 0x20; 0x20] \/
    (exists rest, f_val aid = [0xA0; 0; 0; 0; 0x04; 0x10] ++ rest) \/ (exists rest, f_val aid = [0xA0; 0; 0; 0; 0x04; 0x30] ++ rest)).
Proof.
  intros aid Wa. destruct (C35_supported aid tool_aids Wa aids_wf) as (b & E & K). exists b. split; [exact E|]. rewrite K. unfold aid_matches. split.
  - intros (t & It & M). unfold tool_aids in It. cbn [In] in It.
    destruct It as [<-|[<-|[<-|[<-|[<-|[]]]]]]; cbn [f_flags f_val fld] in M; destruct M as [[M1 M2]|[M1 M2]]; try discriminate M1; auto 10.
  - assert (I0 : forall t, In t tool_aids -> aid_matches aid t -> exists t, In t tool_aids /\ (f_flags t = 0 /\ f_val t = f_val aid \/ f_flags t = 1 /\ (exists rest, f_val aid = f_val t ++ rest))) by (intros t It M; exists t; auto).
    intros [(r & Q)|[Q|[Q|[(r & Q)|(r & Q)]]]].
    + apply (I0 (fld 0x9F06 [0xA0; 0; 0; 0; 0x03; 0x10] 1)); [cbn; auto|]. right. split; [reflexivity|]. exists r. exact Q.
    + apply (I0 (fld 0x9F06 [0xA0; 0; 0; 0; 0x03; 0x20; 0x10] 0)); [cbn; auto|]. left. split; [reflexivity|]. symmetry. exact Q.
    + apply (I0 (fld 0x9F06 [0xA0; 0; 0; 0; 0x03; 0x20; 0x20] 0)); [cbn; auto|]. left. split; [reflexivity|]. symmetry. exact Q.
    + apply (I0 (fld 0x9F06 [0xA0; 0; 0; 0; 0x04; 0x10] 1)); [cbn; auto 10|]. right. split; [reflexivity|]. exists r. exact Q.
    + apply (I0 (fld 0x9F06 [0xA0; 0; 0; 0; 0x04; 0x30] 1)); [cbn; auto 10|]. right. split; [reflexivity|]. exists r. exact Q.
Qed.
Example C133_ex : app_is_supported (fld 0x4F [0xA0; 0; 0; 0; 3; 0x10; 0x10] 0) tool_aids = Ret true /\ app_is_supported (fld 0x4F [0xA0; 0; 0; 0; 3; 0x20; 0x10; 1] 0) tool_aids = Ret false /\
  app_is_supported (fld 0x4F [0xA0; 0; 0; 0; 0x25; 1] 0) tool_aids = Ret false.
Proof. repeat split; vm_compute; reflexivity. Qed.

(** ** C134 *)
(** For well-formed lists.  Missing: lists with a cut element (C56), and see below. *)
Theorem C134_reader_partial : forall f fs es junk i name st, feat_ok f -> bytes (f_pin f) /\ bytes (f_disp f) ->
  given (f_buf f) (f_buf_len f) (enc_features fs) -> Forall fentry_ok fs ->
  given (f_props f) (f_props_len f) (enc_props es) -> Forall (fun e => Zlen (snd e) < 256) es -> Forall (fun e => bytes (snd e)) es ->
  length junk = 256%nat -> 0 <= i < 4294967296 ->
  print_reader junk i name f st =
    Ret (lit "Reader " ++ decimal_text i ++ lit ": " ++ name ++ [10] ++ features_text (map fe_tag fs) ++ properties_text f es ++ [9] ++ lit "State: " ++ state_text st ++ [10]).
Proof.
  intros f fs es junk i name st OK BF Gf Ff Ge Se Be J I0. unfold print_reader. rewrite (features_spec f fs OK Gf Ff). cbn [bind].
  rewrite (properties_spec f es OK Ge Se Be BF junk J). cbn [bind]. rewrite state_spec, p_dec_text by lia. reflexivity.
Qed.
(** C134 is false: a reader that tells of a display with no characters and no lines is listed with one. *)
Theorem C134_lcd_refuted : exists f es, feat_ok f /\ given (f_props f) (f_props_len f) (enc_props es) /\ es = [(0x04, [0; 0]); (0x05, [0; 0])] /\
  properties_line f (repeat 0 256) = Ret ([9] ++ lit "Properties: LCD" ++ [10]).
Proof.
  exists (mkfeat (repeat 0 264) 0 (repeat 0 4) 0 (repeat 0 4) 0 ([4; 2; 0; 0; 5; 2; 0; 0] ++ repeat 0 256) 8), [(0x04, [0; 0]); (0x05, [0; 0])].
  split; [|split; [|split; [reflexivity|vm_compute; reflexivity]]].
  - unfold feat_ok. cbn [f_buf f_buf_len f_pin f_disp f_props f_props_len]. repeat split; vm_compute; auto; discriminate.
  - exists (repeat 0 256). split; reflexivity.
Qed.
Example C134_ex : print_reader (repeat 0xAA 256) 0 (lit "ACME") (mkfeat ([6; 4; 0x42; 0x33; 0; 6; 9; 4; 0; 0; 0; 9] ++ repeat 0 252) 12 (repeat 0 4) 0 (repeat 0 4) 0
    ([1; 2; 16; 2; 6; 1; 4; 7; 1; 12; 11; 2; 0xE6; 0x08; 12; 2; 0x37; 0x34] ++ repeat 0 246) 18) (Some 0x22) =
  Ret (lit "Reader 0: ACME" ++ [10; 9] ++ lit "Features: PIN verification, MCT universal" ++ [10; 9] ++ lit "Properties: LCD 16 x 2, PIN size 4-12, USB device 08e6:3437" ++ [10; 9] ++ lit "State: Card present" ++ [10]).
Proof. vm_compute. reflexivity. Qed.

(** ** C135 *)
Theorem C135_line_partial : forall ds rest count, digits ds -> (1 <= length ds <= 2)%nat ->
  ask (chars ds ++ 10 :: rest) count = (if (1 <=? number ds) && (number ds <=? count) then Some (Z.to_nat (number ds - 1)) else None, rest).
Proof. exact ask_line. Qed.
Theorem C135_in_range : forall i count, exists a, i = a ++ snd (ask i count) /\ (length a <= 3)%nat /\ (i <> [] -> a <> []) /\
  forall k, fst (ask i count) = Some k -> 1 <= Z.of_nat (S k) <= count.
Proof. exact ask_spec. Qed.
(** C135 is false: "1002" is refused and then selects application 2; "1x" selects application 1. *)
Theorem C135_long_refuted : exists i, ask (lit "1002" ++ [10]) 3 = (None, i) /\ ask i 3 = (Some 1%nat, []) /\ ask (lit "1x" ++ [10]) 3 = (Some O, []).
Proof. eexists. repeat split; vm_compute; reflexivity. Qed.
Example C135_ex : ask (lit "2" ++ 10 :: lit "1" ++ [10]) 3 = (Some 1%nat, lit "1" ++ [10]) /\ ask (lit "4" ++ [10]) 3 = (None, []) /\ ask (lit "0" ++ [10]) 3 = (None, []) /\ ask (lit "-1" ++ [10]) 3 = (None, []).
Proof. repeat split; vm_compute; reflexivity. Qed.

(** ** C136 *)
(** C136 is false: at the end of the input the cardholder is asked for ever. *)
Theorem C136_end_of_input_refuted : exists apps, apps <> [] /\ selection_required apps = true /\
  forall T (x : transport T) junk buf fuel s c, select_loop x junk buf fuel s c apps (selection_required apps) [] = NoFuel.
Proof.
  set (a := mkApp (mkField 0x4F 5 [0xA0; 0; 0; 0; 3] 0) ([0x56] ++ repeat 0 16) 1 true []). exists [a]. split; [discriminate|]. split; [reflexivity|]. intros T x junk buf fuel s c.
  apply eof_loop. constructor; [|constructor]. unfold usable. cbn. split; [|split; [split; constructor|auto]].
  unfold wf_field, small. cbn [f_len f_val]. repeat split; repeat constructor; unfold is_byte; lia.
Qed.
(** With a first choice for every candidate, or if no choice is required, there are at most as many rounds as candidates, for cards that answer.  Missing: other input. *)
Theorem C136_rounds_partial : forall T (x : transport T), wf_transport x -> forall junk buf, length junk = 17%nat -> length buf = 255%nat ->
  forall n s c apps required i, answers x -> Forall usable apps -> fields_ok (k_params c) -> fields_ok (k_config c) -> apps <> [] -> (length apps <= n)%nat ->
  (required = true -> exists r, i = ones n ++ r) -> select_loop x junk buf n s c apps required i <> NoFuel.
Proof. exact @loop_ends. Qed.
(** No application is tried twice, and what is left has not been tried. *)
Theorem C136_once : forall T (x : transport T), wf_transport x -> forall junk buf, length junk = 17%nat -> length buf = 255%nat ->
  forall fuel s c apps required i ok ev apps' c' s' i', Forall usable apps -> fields_ok (k_params c) -> fields_ok (k_config c) ->
  select_loop x junk buf fuel s c apps required i = Ret (ok, ev, apps', c', s', i') -> exists tried, Permutation apps (tried ++ apps').
Proof.
  intros T x W junk buf Lj Lb fuel s c apps required i ok ev apps' c' s' i' U Fp Fc E. pose proof (loop_safe x W junk Lj buf Lb fuel s c apps required i U Fp Fc) as K. rewrite E in K. apply K.
Qed.
Example C136_ex :
  let a n p := mkApp (mkField 0x4F 5 [0xA0; 0; 0; 0; n] 0) ([48 + n] ++ repeat 0 16) p true [] in
  match select_loop ex_tr zeros17 gbuf 3 ([[0x6A; 0x82]; [0x6A; 0x82]; [0x6A; 0x82]], []) ctx_init [a 1 1; a 2 2; a 3 3] true (lit "3" ++ [10] ++ lit "9" ++ [10] ++ lit "1" ++ [10]) with
  | NoFuel => true | _ => false end = true /\
  match select_loop ex_tr zeros17 gbuf 4 ([[0x6A; 0x82]; [0x6A; 0x82]; [0x6A; 0x82]], []) ctx_init [a 1 1; a 2 2; a 3 3] true (lit "3" ++ [10] ++ lit "9" ++ [10] ++ lit "1" ++ [10] ++ lit "1" ++ [10]) with
  | Ret (ok, ev, apps, _, (_, log), i) => (ok, last ev icc_line, apps, i, map (fun c => nth 9 c 0) log) | _ => (true, icc_line, [], [], []) end =
    (false, Say (lit "OUTCOME: Not accepted" ++ [10]), [], [], [3; 1; 2]).
Proof. split; vm_compute; reflexivity. Qed.

(** ** C137 *)
(** Undefined behaviour only for a card that accepts a SELECT or READ RECORD without any data (C64, C68).  Missing: those. *)
Theorem C137_safe_partial : forall T (x : transport T), wf_transport x -> forall junk buf, length junk = 17%nat -> length buf = 255%nat ->
  forall fuel rounds s t o i, calendar t -> is_byte (o_type o) -> 0 <= o_amount o < 4294967296 -> 0 <= o_other o < 4294967296 ->
  session x junk buf fuel rounds s t o i = UB -> blank x.
Proof.
  intros T x W junk buf Lj Lb fuel rounds s t o i Ct Bt A O E. pose proof (session_spec x W junk Lj buf Lb fuel rounds s t o i Ct Bt A O) as K. rewrite E in K. exact K.
Qed.
Theorem C137_blank_refuted : exists opts, snd (tool ex_tr zeros17 gbuf 30 5 ([[0x6A; 0x82]; [0x90; 0]], []) t_time opts t_card []) = UB.
Proof. exists [TxnType (lit "00"); TxnAmount (lit "1")]. vm_compute. reflexivity. Qed.
(** Data of the card are only printed if every step has succeeded. *)
Theorem C137_printed : forall T (x : transport T), wf_transport x -> forall junk buf, length junk = 17%nat -> length buf = 255%nat ->
  forall fuel rounds s t o i ev c s', calendar t -> is_byte (o_type o) -> 0 <= o_amount o < 4294967296 -> 0 <= o_other o < 4294967296 ->
  session x junk buf fuel rounds s t o i = Ret (ev, c, s') -> In (Say ([10] ++ lit "ICC data:" ++ [10])) ev ->
  exists pre params apps s1 a fields gpo records f g,
    ev = pre ++ [Say ([10] ++ lit "ICC data:" ++ [10]); Fields (k_icc c); Say ([10] ++ lit "Terminal data" ++ [10]); Fields (k_term c)] /\
    load_params (firstn 6 buf) t 42 (o_type o) (o_amount o) (o_other o) = Ret params /\
    build_candidate_list x junk fuel s (mkCtx true tool_config tool_aids params None [] []) [] = Ret (0, apps, s1) /\ In a apps /\
    k_icc c = fields ++ gpo ++ records /\ first_with 0x82 gpo f /\ first_with 0x94 gpo g /\ incl mandatory (map f_tag records) /\ no_duplicates records /\
    k_term c = terminal_data 0x05 (f_val (a_aid a)).
Proof.
  intros T x W junk buf Lj Lb fuel rounds s t o i ev c s' Ct Bt A O E I0. pose proof (session_spec x W junk Lj buf Lb fuel rounds s t o i Ct Bt A O) as K. rewrite E in K.
  destruct K as (params & Ep & _ & _ & _ & K). destruct (K I0) as (pre & apps & s1 & c1 & s2 & fs & Ev & Eb & (a & b & gpo & f & g & Ia & _ & _ & Ei & _ & F1 & F2 & Et) & _ & Ek & Ekt & Im & Nd & _).
  exists pre, params, apps, s1, a, (a_tlvs b), gpo, fs, f, g. rewrite Ek, Ei, <- app_assoc, Ekt. repeat (split; [assumption|]).
  split; [rewrite Ev, Ek, Ei, <- app_assoc, Ekt; reflexivity|]. auto 10.
Qed.
(** The commands sent. *)
Theorem C137_commands : forall S tfuel (card : cardfn S) tjunk junk buf, respects_buffer card -> (forall s tx, bytes (snd (snd (card s tx)))) -> bytes tjunk ->
  length junk = 17%nat -> length buf = 255%nat -> forall fuel rounds s log t o i ev c s' log',
  calendar t -> is_byte (o_type o) -> 0 <= o_amount o < 4294967296 -> 0 <= o_other o < 4294967296 ->
  session (ttl_transport tfuel (logged card) ModeApdu tjunk) junk buf fuel rounds (s, log) t o i = Ret (ev, c, (s', log')) ->
  exists params apps g, load_params (firstn 6 buf) t 42 (o_type o) (o_amount o) (o_other o) = Ret params /\
    (exists r s1, build_candidate_list (ttl_transport tfuel (logged card) ModeApdu tjunk) junk fuel (s, log) (mkCtx true tool_config tool_aids params None [] []) [] = Ret (r, apps, s1)) /\
    log' = log ++ g /\ sent (session_cmd params apps) g.
Proof.
  intros S tfuel card tjunk junk buf Rb Hb Bj Lj Lb fuel rounds s log t o i ev c s' log' Ct Bt A O E.
  destruct (session_wire tfuel card tjunk junk buf Rb Hb Bj Lj Lb fuel rounds s log t o i ev c s' log' Ct Bt A O E) as (params & apps & Ep & Eb & (g & El & Sg)). exists params, apps, g. auto.
Qed.
Example C137_ex :
  match tool ex_tr zeros17 gbuf 30 5 (t_script, []) t_time [TxnType (lit "00"); TxnAmount (lit "1234")] t_card [] with
  | ([], Ret (ev, (rest, log))) => (last ev icc_line, rest, skipn 7 log) | _ => (icc_line, [[]], []) end =
  (Fields [mkField 0x9F39 1 [5] 0; mkField 0x9F06 7 [0xA0; 0; 0; 0; 3; 0x10; 0x10] 0; mkField 0x9B 2 [0; 0] 0; mkField 0x95 5 [0; 0; 0; 0; 0] 0], [],
   [select_cmd 0 [0xA0; 0; 0; 0; 3; 0x10; 0x10]; [0x80; 0xA8; 0; 0; 8; 0x83; 6; 0; 0; 0; 0; 0x12; 0x34; 0]; [0; 0xB2; 1; 0x0C; 0]]).
Proof. vm_compute. reflexivity. Qed.

(** ** C138 *)
Theorem C138_card_checked : forall T (x : transport T) junk buf fuel rounds s t opts p i err ev s', tool x junk buf fuel rounds s t opts p i = (err, Ret (ev, s')) -> s' <> s ->
  exists o atr, parse_options settings0 opts = Accepted o /\ err = amount_checks o /\ p_wait p = 0 /\ p_connect p = TYPE_CONTACT /\ p_atr p = Some atr /\ emv_atr_parse atr = Ret 0 /\
  exists ev' c, session x junk buf fuel rounds s t o i = Ret (ev', c, s').
Proof.
  intros T x junk buf fuel rounds s t opts p i err ev s' E N. unfold tool in E. destruct (parse_options settings0 opts) as [o|m|]; [|injection E as _ _ Q; congruence|injection E as _ _ Q; congruence].
  injection E as <- E. exists o. destruct (Z.ltb_spec (p_wait p) 0); [apply inv_ret in E; congruence|]. destruct (Z.ltb_spec 0 (p_wait p)); [apply inv_ret in E; congruence|].
  destruct (p_connect p <? 0); [apply inv_ret in E; congruence|]. destruct (Z.eqb_spec (p_connect p) TYPE_CONTACT); [|destruct (_ =? _); apply inv_ret in E; congruence].
  destruct (p_atr p) as [atr|]; [|apply inv_ret in E; congruence]. apply BaseLemmas.bind_Ret_inv in E as (r & Ea & E). destruct (Z.eqb_spec r 0) as [->|]; cbn [negb] in E; [|apply inv_ret in E; congruence].
  apply BaseLemmas.bind_Ret_inv in E as ([[ev' c] s1] & Es & E). apply inv_ret in E. injection E as _ ->. exists atr. repeat (split; [first [reflexivity|assumption|lia]|]). eauto.
Qed.
Example C138_ex : tool ex_tr zeros17 gbuf 30 5 (t_script, []) t_time [TxnType (lit "00"); TxnAmount (lit "1")] (mkPresented 0 TYPE_CONTACT (Some [0x3B; 0x60; 0x00; 0x01])) [] =
  ([], Ret ([Say ([10] ++ lit "Present card" ++ [10]); Say (lit "Card activated" ++ [10]); Say (lit "OUTCOME: Card error" ++ [10])], (t_script, []))).
Proof. vm_compute. reflexivity. Qed.

Print Assumptions C129_type.
Print Assumptions C129_amount.
Print Assumptions C129_type_accepted_partial.
Print Assumptions C129_amount_accepted_partial.
Print Assumptions C129_type_refuted.
Print Assumptions C129_amount_refuted.
Print Assumptions C130_sources_partial.
Print Assumptions C130_sources_refused.
Print Assumptions C130_all_refuted.
Print Assumptions C130_default.
Print Assumptions C130_level.
Print Assumptions C131_parameters.
Print Assumptions C131_typed.
Print Assumptions C132_messages_partial.
Print Assumptions C132_zero_refuted.
Print Assumptions C133_supported.
Print Assumptions C134_reader_partial.
Print Assumptions C134_lcd_refuted.
Print Assumptions C135_line_partial.
Print Assumptions C135_in_range.
Print Assumptions C135_long_refuted.
Print Assumptions C136_end_of_input_refuted.
Print Assumptions C136_rounds_partial.
Print Assumptions C136_once.
Print Assumptions C137_safe_partial.
Print Assumptions C137_blank_refuted.
Print Assumptions C137_printed.
Print Assumptions C137_commands.
Print Assumptions C138_card_checked.
