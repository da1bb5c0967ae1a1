(** Properties of emv-decode (C125 to C128). *)
From Coq Require Import String.
From Verif Require Import Base BaseLemmas BerModel TlvModel StrModel CapduModel FieldsModel FlagsModel AtrModel Iso8859Model InfoModel ToolsModel PrintModel BerTextModel DecodeModel
  TlvSpec BerSpec FieldsSpec StrSpec CapduSpec FlagsSpec InfoSpec ToolsSpec Iso8859Spec DecodeSpec
  CapduProofs FlagsTexts FlagsProps InfoTexts PrintProofs InfoProps ToolsProps Iso8859Props DecodeProofs DecodeTexts.
Open Scope string_scope.
Open Scope Z_scope.
Open Scope list_scope.
Notation length := List.length.

Definition ex_codes : codes := mkCodes ex_env (fun a => if list_eqb a (lit "EUR") then Some (lit "Euro") else None) (fun a => if list_eqb a (lit "nld") then Some (lit "Dutch") else None).

(** C125 is false: a field without any bit set leaves the array as it was, and what it held is
    printed; and the arrays are too small for some fields, the rest of which is not printed. *)
Theorem C125_nothing_set_refuted : exists v long1 long2 s1 s2, bytes v /\ described MTvr v [] /\ length long1 = 2048%nat /\ length long2 = 2048%nat /\
  decode ex_codes (repeat 0 1024) long1 [] false MTvr v [] = Ret (s1, []) /\ decode ex_codes (repeat 0 1024) long2 [] false MTvr v [] = Ret (s2, []) /\ s1 <> s2.
Proof.
  exists [0; 0; 0; 0; 0], (repeat 0 2048), (repeat 65 20 ++ repeat 0 2028). do 2 eexists. split; [repeat constructor; unfold is_byte; lia|].
  split; [change (@nil (list Z)) with (table_texts T_tvr [0; 0; 0; 0; 0]); constructor; reflexivity|]. split; [apply repeat_length|]. split; [rewrite app_length, !repeat_length; reflexivity|].
  split; [vm_compute; reflexivity|]. split; [vm_compute; reflexivity|]. discriminate.
Qed.
Definition shorter (a b : list Z) : bool := (length a <? length b)%nat.
Theorem C125_cut_refuted :
  let cut m v := bytes v /\ ~ misread m v /\ exists t s, described m v t /\ decode ex_codes (repeat 7 1024) (repeat 7 2048) [] false m v [] = Ret (s, []) /\ s <> lines t in
  (exists v, cut MAddlTermCaps v) /\ (exists v, cut MCvmList v) /\ (exists v, cut MIad v).
Proof.
  assert (K : forall a b, shorter a b = true -> a <> b) by (intros a b H ->; unfold shorter in H; rewrite Nat.ltb_irrefl in H; discriminate).
  assert (R : forall b n, is_byte b -> bytes (repeat b n)) by (intros b n H; apply Forall_forall; intros x I; apply repeat_spec in I; subst; exact H).
  cbv zeta. split; [|split].
  - exists (repeat 255 5). split; [apply R; unfold is_byte; lia|]. split; [vm_compute; discriminate|]. do 2 eexists. split; [constructor; reflexivity|]. split; [vm_compute; reflexivity|]. apply K. vm_compute. reflexivity.
  - exists (repeat 0 4 ++ repeat 0 4 ++ flat_map (fun r => [fst r; snd r]) (repeat (0x42, 3) 30)). split; [apply Forall_forall; intros x I; vm_compute in I; intuition (subst; unfold is_byte; lia)|].
    split; [intros []|]. do 2 eexists. split; [apply d_cvm; [reflexivity|reflexivity|rewrite repeat_length; lia]|]. split; [vm_compute; reflexivity|]. apply K. vm_compute. reflexivity.
  - exists ([1; 0x10] ++ repeat 255 16). split; [apply Forall_app; split; [repeat constructor; unfold is_byte; lia|apply R; unfold is_byte; lia]|].
    split; [intros [H _]; inversion H; discriminate|]. do 2 eexists. split; [apply (d_iad IAD_MCHIP4); [cbn; lia|apply iad_mchip4; [reflexivity|cbn; tauto]|left; vm_compute; discriminate]|].
    split; [vm_compute; reflexivity|]. apply K. vm_compute. reflexivity.
Qed.
(** Otherwise all the lines are printed and nothing else, whatever the arrays held. *)
Theorem C125_decoded_partial : forall c short long beyond pad m v t arg, bytes v -> length short = 1024%nat -> length long = 2048%nat -> length (j_cond (c_env c)) = 128%nat ->
  described m v t -> ~ misread m v -> t <> [] -> (length (lines t) < array_of m)%nat -> decode c short long beyond pad m v arg = Ret (lines t, []).
Proof. exact decode_listed. Qed.
(** The arrays are large enough for all other fields. *)
Theorem C125_fits_partial : forall m v t, bytes v -> described m v t -> ~ In m [MAddlTermCaps; MCvmList; MIad] -> (length (lines t) < array_of m)%nat.
Proof. exact decode_fits. Qed.
Theorem C125_fits_iad_partial : forall f v, In f [IAD_CCD; IAD_VSDC_0; IAD_VSDC_1; IAD_VSDC_3] -> (length (lines (iad_texts f v)) < array_of MIad)%nat.
Proof. exact decode_fits_iad. Qed.
(** The country of a code in two octets: the name for its digits, at most 127 characters of it. *)
Definition country_name (e : env) (cc : list Z) : option (list Z) :=
  if forallb (fun b => (b / 16 <=? 9) && (b mod 16 <=? 9)) cc
  then match by_numeric e (decval cc) with Some (x :: s) => Some (firstn 127 (x :: s)) | _ => None end else None.
Lemma country_found e cc : texts_only (by_numeric e) -> bytes cc -> length cc = 2%nat -> tpd_country e cc = country_name e cc.
Proof.
  intros T B L. unfold tpd_country, country_name. destruct (numeric_shown (by_numeric e) cc (repeat 0 128) T B ltac:(discriminate)) as [Y N].
  change (country_numeric_string e) with (numeric_string (by_numeric e)).
  destruct (forallb _ cc) eqn:D.
  - assert (C : numeric_code cc).
    { split; [|exact L]. rewrite forallb_forall in D. apply Forall_forall. intros b I. specialize (D b I). pose proof (proj1 (Forall_forall _ _) B b I) as R. unfold is_byte in R.
      apply andb_prop in D as [D1 D2]. apply Z.leb_le in D1, D2. split; [|split]; assumption. }
    destruct (Y C) as (new & -> & _ & S). rewrite repeat_length in S. rewrite (p_s_cstring _ _ S).
    destruct (by_numeric e (decval cc)) as [[|x s]|]; reflexivity.
  - assert (C : ~ numeric_code cc).
    { intros [C _]. enough (forallb (fun b => (b / 16 <=? 9) && (b mod 16 <=? 9)) cc = true) by congruence. apply forallb_forall. intros b I.
      pose proof (proj1 (Forall_forall _ _) C b I) as R. cbn beta in R. lia. }
    destruct (N C) as (r & R & ->). destruct r; [contradiction|reflexivity|reflexivity].
Qed.
Lemma party_same f g v t : (forall cc, length cc = 2%nat -> firstn 2 v = cc -> f cc = g cc) -> third_party f v t -> third_party g v t.
Proof.
  intros E T. assert (Q : forall cc (r : list Z), length cc = 2%nat -> firstn 2 (cc ++ r) = cc) by (intros [|a [|b [|? ?]]] r L; try discriminate; reflexivity).
  destruct T as [cc d L Ld Fd|cc id dev data L X Ld|cc id dev data L X Ld]; rewrite (E cc L (Q cc _ L)); constructor; assumption.
Qed.
Lemma name_text e cc : texts_only (by_numeric e) -> let s := match country_name e cc with Some s => s | None => lit "Unknown" end in nz s /\ (length s <= 127)%nat.
Proof.
  intros T. unfold country_name. destruct (forallb _ cc); [|split; [apply clean_nz; reflexivity|vm_compute; lia]].
  destruct (by_numeric e (decval cc)) as [[|x s]|] eqn:E; try (split; [apply clean_nz; reflexivity|vm_compute; lia]).
  split; [|apply firstn_le_length]. pose proof (T _ _ E) as N. apply Forall_forall. intros y I. apply (proj1 (Forall_forall _ _) N). rewrite <- (firstn_skipn 127 (x :: s)). apply in_or_app. left. exact I.
Qed.
Lemma device_ok d : length d = 2%nat -> Forall (fun c => c <> 0) d -> nz (device_line d) /\ (length (device_line d) <= 300)%nat.
Proof.
  intros L F. destruct d as [|a [|b [|? ?]]]; try discriminate. unfold device_line.
  assert (K : forallb (fun n => clean (lit n) && (length (lit n) <=? 270)%nat) device_names = true) by (vm_compute; reflexivity).
  assert (N : forall k, nz (lit (nth k device_names "")) /\ (length (lit (nth k device_names "")) <= 270)%nat).
  { intros k. destruct (nth_in_or_default k device_names "") as [I|E]; [|rewrite E; split; [constructor|cbn; lia]].
    rewrite forallb_forall in K. specialize (K _ I). apply andb_prop in K as [K1 K2]. split; [apply clean_nz, K1|apply Nat.leb_le, K2]. }
  split.
  - apply nz_app; [apply clean_nz; reflexivity|]. apply nz_app; [exact F|]. destruct (_ && _); [|constructor]. apply nz_app; [apply clean_nz; reflexivity|apply N].
  - rewrite !app_length. change (length (lit "Device Type: ")) with 13%nat. change (length [a; b]) with 2%nat. destruct (_ && _); [|cbn; lia]. rewrite app_length. change (length (lit " - ")) with 3%nat.
    pose proof (proj2 (N (Z.to_nat (10 * (a - 48) + (b - 48))))). lia.
Qed.
Lemma party_texts e v t : texts_only (by_numeric e) -> third_party (country_name e) v t -> t <> [] /\ Forall nz t /\ (length (lines t) < 2048)%nat /\ (5 <= length v <= 32)%nat.
Proof.
  intros T P.
  assert (K : forall s t, lines (s :: t) = s ++ [10] ++ lines t) by (intros s u; unfold lines; cbn [flat_map]; rewrite <- app_assoc; reflexivity).
  assert (X : forall id dev, extension id dev -> (2 <= length id <= 4)%nat /\ Forall nz dev /\ (length (lines dev) <= 301)%nat).
  { intros id dev [d Ld Fd|]; [|cbn; repeat split; try lia; constructor]. destruct (device_ok d Ld Fd). split; [rewrite app_length, Ld; cbn; lia|]. split; [constructor; [assumption|constructor]|].
    rewrite K, !app_length. cbn [lines flat_map length]. lia. }
  destruct P as [cc d L Ld Fd|cc id dev data L Y Ld|cc id dev data L Y Ld]; pose proof (name_text e cc T) as [N1 N2];
    set (s := match country_name e cc with Some s => s | None => lit "Unknown" end) in *; clearbody s; (split; [discriminate|]);
    [destruct (device_ok d Ld Fd) as [D1 D2]|destruct (X id dev Y) as (X1 & X2 & X3)|destruct (X id dev Y) as (X1 & X2 & X3)]; cbn [app].
  - split; [|split].
    + repeat (constructor; [first [apply nz_app; [apply clean_nz; reflexivity|exact N1]|exact D1|apply clean_nz; reflexivity]|]). constructor.
    + rewrite !K, !app_length. repeat match goal with |- context [length (lit ?s)] => let n := eval vm_compute in (length (lit s)) in change (length (lit s)) with n end. cbn [lines flat_map length]. lia.
    + rewrite app_length. cbn [length]. rewrite app_length, L, Ld. cbn; lia.
  - split; [|split].
    + constructor; [apply nz_app; [apply clean_nz; reflexivity|exact N1]|]. constructor; [apply clean_nz; reflexivity|]. apply Forall_app. split; [exact X2|].
      constructor; [apply clean_nz; reflexivity|]. apply table_nz. vm_compute. reflexivity.
    + rewrite !K, lines_app, K, !app_length. pose proof (table_size tpd_fleet_table (0 :: 1 :: data) ltac:(vm_compute; reflexivity)) as Z.
      match type of Z with (_ <= ?x)%nat => let y := eval vm_compute in x in change x with y in Z end.
      repeat match goal with |- context [length (lit ?s)] => let n := eval vm_compute in (length (lit s)) in change (length (lit s)) with n end. cbn [length]. lia.
    + rewrite !app_length. cbn [length]. lia.
  - split; [|split].
    + constructor; [apply nz_app; [apply clean_nz; reflexivity|exact N1]|]. constructor; [apply clean_nz; reflexivity|]. apply Forall_app. split; [exact X2|].
      constructor; [apply clean_nz; reflexivity|]. apply table_nz. vm_compute. reflexivity.
    + rewrite !K, lines_app, K, !app_length. pose proof (table_size tpd_transit_table (0 :: 2 :: data) ltac:(vm_compute; reflexivity)) as Z.
      match type of Z with (_ <= ?x)%nat => let y := eval vm_compute in x in change x with y in Z end.
      repeat match goal with |- context [length (lit ?s)] => let n := eval vm_compute in (length (lit s)) in change (length (lit s)) with n end. cbn [length]. lia.
    + rewrite !app_length. cbn [length]. lia.
Qed.
(** Third party data, and form factor indicators of other versions. *)
Theorem C125_third_party : forall c short long beyond pad v t arg, bytes v -> length long = 2048%nat -> texts_only (by_numeric (c_env c)) ->
  third_party (country_name (c_env c)) v t -> decode c short long beyond pad MThirdParty v arg = Ret (lines t, []).
Proof.
  intros c short long beyond pad v t arg B Ll T P. destruct (party_texts _ _ _ T P) as (NE & N & F & L).
  assert (Nl : long <> []) by (eapply nonempty; [exact Ll|discriminate]). cbn [decode].
  destruct (C98_third_party_text_partial (tpd_country (c_env c)) v t long B Nl) as (new & E & I).
  { apply (party_same (country_name (c_env c))); [|exact P]. intros cc Lc <-. symmetry. apply country_found; [exact T| |exact Lc]. pose proof B as B2. rewrite <- (firstn_skipn 2 v) in B2. apply Forall_app in B2. apply B2. }
  eapply (listed _ _ _ _ long); [unfold Zlen; lia|exact E|exact I|exact NE|lia|lia|exact N].
Qed.
Theorem C125_form_factor_versions : forall c short long beyond pad v arg, bytes v -> length long = 2048%nat -> length v = 4%nat -> range (octet v 1) 8 6 <> 1 ->
  decode c short long beyond pad MFormFactor v arg = Ret (lit "Form Factor Indicator (FFI): Version Number " ++ decimal_text (range (octet v 1) 8 6) ++ [10], []).
Proof.
  intros c short long beyond pad v arg B Ll L R. assert (Nl : long <> []) by (eapply nonempty; [exact Ll|discriminate]). cbn [decode].
  destruct (C93_form_factor_indicator v long B Nl) as (_ & A & _). destruct (A ltac:(unfold Zlen; lia) R) as (new & E & I).
  pose proof (range_octet (octet v 1) 8 6 ltac:(lia) ltac:(lia)) as Q. pose proof (decimal_text_len (range (octet v 1) 8 6) ltac:(lia)) as W.
  match type of I with in_lines _ _ ?t => replace (_ ++ decimal_text _ ++ [10]) with (lines t) by (cbn [lines flat_map]; rewrite app_nil_r, <- app_assoc; reflexivity) end.
  eapply (listed _ _ _ _ long); [unfold Zlen; rewrite L; reflexivity|exact E|exact I|discriminate|lia| |].
  - cbn [lines flat_map]. rewrite app_nil_r, !app_length. change (length (lit "Form Factor Indicator (FFI): Version Number ")) with 44%nat. cbn [length]. lia.
  - constructor; [|constructor]. apply nz_app; [apply clean_nz; reflexivity|apply decimal_text_nz; lia].
Qed.
Example C125_party_ex : decode ex_codes (repeat 7 1024) (repeat 7 2048) [] false MThirdParty [0x05; 0x28; 0; 0; 0x30; 0x32; 0] [] =
  Ret (lines [lit "Country: Netherlands"; lit "Unique Identifier: Proprietary Data not used"; lit "Device Type: 02 - Key Fob"; lit "Proprietary Data: Not used"], []) /\
  decode ex_codes (repeat 7 1024) (repeat 7 2048) [] false MFormFactor [0x40; 0; 0; 0] [] = Ret (lit "Form Factor Indicator (FFI): Version Number 2" ++ [10], []).
Proof. split; vm_compute; reflexivity. Qed.
(** Fields of other sizes are refused. *)
Theorem C125_sizes : forall c short long beyond pad m v arg, bytes v -> long <> [] -> length (j_cond (c_env c)) = 128%nat -> wrong_size m (Zlen v) ->
  exists e, decode c short long beyond pad m v arg = Ret ([], e) /\ e <> [].
Proof. exact decode_refused. Qed.
(** One-line descriptions. *)
Theorem C125_status : forall c short long beyond pad a b arg, is_byte a -> is_byte b -> length short = 1024%nat ->
  exists s, (forall str, str <> [] -> exists new, sw1sw2_get_string a b str = Ret (true, new) /\ shown str new s) /\
    decode c short long beyond pad MSw1Sw2 [a; b] arg = Ret (lit "SW1SW2: " ++ hex_text [a; b] ++ lit " (" ++ firstn 1023 s ++ lit ")" ++ [10], []).
Proof. exact sw_printed. Qed.
Theorem C125_reader : forall c short long beyond pad b arg, is_byte b -> length short = 1024%nat ->
  decode c short long beyond pad MAmexReader [b] arg = Ret (lit (amex_reader b) ++ [10], []).
Proof. exact amex_printed. Qed.
Example C125_ex :
  decode ex_codes (repeat 9 1024) (repeat 9 2048) [] false MTsi [0xC0; 0] [] =
    Ret (lit "Offline data authentication was performed" ++ [10] ++ lit "Cardholder verification was performed" ++ [10], []) /\
  decode ex_codes (repeat 9 1024) (repeat 9 2048) [] false MTsi [0xC0] [] = Ret ([], lit "EMV Transaction Status Information (field 9B) must be exactly 2 bytes" ++ [10]) /\
  decode ex_codes (repeat 9 1024) (repeat 9 2048) [] false MSw1Sw2 [0x63; 0xC2] [] = Ret (lit "SW1SW2: 63C2 (Warning: Counter is 2)" ++ [10], []).
Proof. vm_compute. auto. Qed.

(** C126.  The octets of INPUT are what is decoded. *)
Theorem C126_hex : forall c short long beyond junk stdin opts m text bs, modes opts = [m] -> is_lookup (Some m) = false -> (forall n, length (junk n) = n) ->
  Forall (fun x => x <> 0) text -> hex_of text bs -> bs <> [] ->
  emv_decode c short long beyond junk stdin opts [text] = (let* (a, b) := decode c short long beyond (ignores opts) m bs [] in Ret (Printed a b)).
Proof. exact input_hex. Qed.
Theorem C126_stdin : forall c short long beyond junk opts m d, modes opts = [m] -> is_lookup (Some m) = false -> d <> [] ->
  emv_decode c short long beyond junk (Some d) opts [lit "-"] = (let* (a, b) := decode c short long beyond (ignores opts) m d [] in Ret (Printed a b)).
Proof. exact input_stdin. Qed.
Theorem C126_lookup : forall c short long beyond junk stdin opts m arg, modes opts = [m] -> is_lookup (Some m) = true ->
  emv_decode c short long beyond junk stdin opts [arg] = (let* (a, b) := decode c short long beyond (ignores opts) m [] arg in Ret (Printed a b)).
Proof. exact input_lookup. Qed.
(** What is not octets in hex digits is refused, as are two decoding options and a missing INPUT. *)
Theorem C126_refused : forall c short long beyond junk stdin opts, (forall n, length (junk n) = n) ->
  (forall m text, modes opts = [m] -> is_lookup (Some m) = false -> Forall (fun x => x <> 0) text -> text <> lit "-" -> (forall bs, hex_of text bs -> bs = []) ->
     exists t, emv_decode c short long beyond junk stdin opts [text] = Ret (Refused t)) /\
  (forall args, (2 <= length (modes opts))%nat -> exists t, emv_decode c short long beyond junk stdin opts args = Ret (Refused t)) /\
  (exists t, emv_decode c short long beyond junk stdin opts [] = Ret (Refused t)).
Proof.
  intros c short long beyond junk stdin opts J. split; [|split].
  - intros m text M NL N ND H. exact (input_bad c short long beyond junk stdin opts m text M NL J N ND H).
  - intros args L. apply input_several; exact L.
  - apply input_none.
Qed.
(** C126 is false for more than one INPUT: only the last one is decoded, without a message. *)
Theorem C126_several_refuted : exists opts a b x, emv_decode ex_codes (repeat 0 1024) (repeat 0 2048) [] (repeat 7) None opts [a; b] = Ret x /\
  emv_decode ex_codes (repeat 0 1024) (repeat 0 2048) [] (repeat 7) None opts [b] = Ret x /\ x = Printed (lit "Offline data authentication was performed" ++ [10]) [] /\ a <> b.
Proof. exists [Decoding MTsi], (lit "4000"), (lit "8000"). eexists. split; [vm_compute; reflexivity|]. split; [vm_compute; reflexivity|]. split; [reflexivity|discriminate]. Qed.
Example C126_ex :
  emv_decode ex_codes (repeat 9 1024) (repeat 9 2048) [] (repeat 7) None [IgnorePadding; Decoding MTsi] [lit "40 00"] = Ret (Printed (lit "Cardholder verification was performed" ++ [10]) []) /\
  emv_decode ex_codes (repeat 9 1024) (repeat 9 2048) [] (repeat 7) (Some [0x40; 0]) [Decoding MTsi] [lit "-"] = Ret (Printed (lit "Cardholder verification was performed" ++ [10]) []) /\
  emv_decode ex_codes (repeat 9 1024) (repeat 9 2048) [] (repeat 7) None [Decoding MTsi; Decoding MTvr] [lit "4000"] = Ret (Refused "Only one decoding OPTION may be specified") /\
  emv_decode ex_codes (repeat 9 1024) (repeat 9 2048) [] (repeat 7) None [] [lit "4000"] = Ret Help.
Proof. vm_compute. auto. Qed.

(** C127 is false: numbers of fewer digits, with spaces or with signs are taken as codes. *)
Theorem C127_codes_refuted :
  (exists c arg s, decode c (repeat 0 1024) (repeat 0 2048) [] false MCountry [] arg = Ret (s ++ [10], []) /\ by_numeric (c_env c) 36 = Some s /\ by_alpha2 (c_env c) arg = None /\ arg = lit "36") /\
  (exists c arg s, decode c (repeat 0 1024) (repeat 0 2048) [] false MCurrency [] arg = Ret (s ++ [10], []) /\ currency_by (c_env c) 36 = Some s /\ currency_alpha3 c arg = None /\ arg = lit "+36").
Proof.
  set (e := mkEnv (fun _ => None) (fun _ => None) (fun n => if n =? 36 then Some (lit "Australia") else None) (fun n => if n =? 36 then Some (lit "Australian Dollar") else None) (fun _ => None) (fun _ => None) [] [] [] []).
  split; [exists (mkCodes e (fun _ => None) (fun _ => None)), (lit "36"), (lit "Australia")|exists (mkCodes e (fun _ => None) (fun _ => None)), (lit "+36"), (lit "Australian Dollar")]; vm_compute; auto.
Qed.
(** Letters are looked up as such; three digits are looked up by number; other text that does not start
    like a number is refused. *)
Theorem C127_country_partial : forall c short long beyond pad v arg, let e := c_env c in
  let name := if (length arg =? 2)%nat then by_alpha2 e arg else by_alpha3 e arg in
  let out := decode c short long beyond pad MCountry v arg in
  (length arg = 2%nat \/ length arg = 3%nat ->
    (forall s, name = Some s -> out = Ret (s ++ [10], [])) /\
    (forall n, name = None -> digit3 arg n -> out = match by_numeric e n with Some s => Ret (s ++ [10], []) | None => Ret ([], lit "Unknown" ++ [10]) end) /\
    (name = None -> ~ number_start (hd 0 arg) -> exists m, out = Ret ([], m) /\ m <> [])) /\
  (length arg <> 2%nat -> length arg <> 3%nat -> exists m, out = Ret ([], m) /\ m <> []).
Proof.
  intros c short long beyond pad v arg e name out. subst out. cbn [decode]. unfold country_mode. fold e.
  assert (Q : (Zlen arg =? 2) = (length arg =? 2)%nat) by (unfold Zlen; destruct (Nat.eqb_spec (length arg) 2); lia). rewrite Q. fold name.
  split.
  - intros L. replace (negb (length arg =? 2)%nat && negb (Zlen arg =? 3)) with false by (unfold Zlen; destruct L as [-> | ->]; reflexivity).
    split; [intros s ->; reflexivity|]. split.
    + intros n -> (x & y & z & D & -> & ->). rewrite number_found by exact D. reflexivity.
    + intros -> N. destruct arg as [|x arg]; [cbn [length] in L; lia|]. rewrite number_letters by exact N. apply complains_some.
  - intros N2 N3. destruct (Nat.eqb_spec (length arg) 2); [contradiction|]. destruct (Z.eqb_spec (Zlen arg) 3) as [Z3|]; [unfold Zlen in Z3; lia|]. cbn [negb andb]. apply complains_some.
Qed.
Theorem C127_currency_partial : forall c short long beyond pad v arg,
  let out := decode c short long beyond pad MCurrency v arg in
  (length arg = 3%nat ->
    (forall s, currency_alpha3 c arg = Some s -> out = Ret (s ++ [10], [])) /\
    (forall n, currency_alpha3 c arg = None -> digit3 arg n -> out = match currency_by (c_env c) n with Some s => Ret (s ++ [10], []) | None => Ret ([], lit "Unknown" ++ [10]) end) /\
    (currency_alpha3 c arg = None -> ~ number_start (hd 0 arg) -> exists m, out = Ret ([], m) /\ m <> [])) /\
  (length arg <> 3%nat -> exists m, out = Ret ([], m) /\ m <> []).
Proof.
  intros c short long beyond pad v arg out. subst out. cbn [decode]. unfold currency_mode. split.
  - intros L. replace (Zlen arg =? 3) with true by (unfold Zlen; rewrite L; reflexivity). cbn [negb]. split; [intros s ->; reflexivity|]. split.
    + intros n -> (x & y & z & D & -> & ->). rewrite number_found by exact D. reflexivity.
    + intros -> N. destruct arg as [|x arg]; [cbn [length] in L; lia|]. rewrite number_letters by exact N. apply complains_some.
  - intros N3. destruct (Z.eqb_spec (Zlen arg) 3) as [Z3|]; [unfold Zlen in Z3; lia|]. cbn [negb]. apply complains_some.
Qed.
Theorem C127_language : forall c short long beyond pad v arg,
  let name := if (length arg =? 2)%nat then language_by (c_env c) arg else language_alpha3 c arg in
  let out := decode c short long beyond pad MLanguage v arg in
  (length arg = 2%nat \/ length arg = 3%nat -> out = match name with Some s => Ret (s ++ [10], []) | None => Ret ([], lit "Unknown" ++ [10]) end) /\
  (length arg <> 2%nat -> length arg <> 3%nat -> exists m, out = Ret ([], m) /\ m <> []).
Proof.
  intros c short long beyond pad v arg name out. subst out. cbn [decode]. unfold language_mode.
  assert (Q : (Zlen arg =? 2) = (length arg =? 2)%nat) by (unfold Zlen; destruct (Nat.eqb_spec (length arg) 2); lia). rewrite Q. fold name. split.
  - intros L. replace (negb (length arg =? 2)%nat && negb (Zlen arg =? 3)) with false by (unfold Zlen; destruct L as [-> | ->]; reflexivity). destruct name; reflexivity.
  - intros N2 N3. destruct (Nat.eqb_spec (length arg) 2); [contradiction|]. destruct (Z.eqb_spec (Zlen arg) 3) as [Z3|]; [unfold Zlen in Z3; lia|]. cbn [negb andb]. apply complains_some.
Qed.
Theorem C127_merchant_category : forall c short long beyond pad v arg, texts_only (mcc_by (c_env c)) -> bytes v -> length short = 1024%nat ->
  (forall s, numeric_code v -> mcc_by (c_env c) (decval v) = Some s -> (1 <= length s < 1024)%nat -> decode c short long beyond pad MMcc v arg = Ret (s ++ [10], [])) /\
  (numeric_code v -> mcc_by (c_env c) (decval v) = None -> decode c short long beyond pad MMcc v arg = Ret ([], lit "Unknown" ++ [10])) /\
  (~ numeric_code v -> exists e, decode c short long beyond pad MMcc v arg = Ret ([], e) /\ e <> []).
Proof. exact mcc_printed. Qed.
Example C127_ex : let run m s := emv_decode ex_codes (repeat 9 1024) (repeat 9 2048) [] (repeat 7) None [Decoding m] [lit s] in
  run MCountry "528" = Ret (Printed (lit "Netherlands" ++ [10]) []) /\ run MCountry "NL" = Ret (Printed (lit "Netherlands" ++ [10]) []) /\
  run MCurrency "EUR" = Ret (Printed (lit "Euro" ++ [10]) []) /\ run MCurrency "979" = Ret (Printed [] (lit "Unknown" ++ [10])) /\
  run MCurrency "X12" = Ret (Printed [] (lit "Invalid ISO 4217 currency code" ++ [10])) /\ run MLanguage "nld" = Ret (Printed (lit "Dutch" ++ [10]) []) /\
  run MMcc "5999" = Ret (Printed (lit "Miscellaneous and Specialty Retail Stores" ++ [10]) []).
Proof. vm_compute. auto 10. Qed.

(** C128 is false: text that begins with a control character gives an empty line and no message, and
    1024 accented letters are too many for the array. *)
Theorem C128_text_refuted :
  (exists c data, decode c (repeat 0 1024) (repeat 0 2048) [] false (MIso8859 1) data [] = Ret ([10], []) /\ data = [1; 0x41; 0x42]) /\
  (exists c data, Forall graphic data /\ decode c (repeat 0 1024) (repeat 0 2048) [] false (MIso8859 1) data [] = UB).
Proof.
  split; [exists ex_codes, [1; 0x41; 0x42]; split; [vm_compute; reflexivity|reflexivity]|].
  exists ex_codes, (repeat 0xE9 1024). split; [apply Forall_forall; intros x I; apply repeat_spec in I; subst; right; lia|]. vm_compute. reflexivity.
Qed.
(** Otherwise graphic text is printed in UTF-8. *)
Theorem C128_text_partial : forall c short long beyond pad cs tail u arg, Forall graphic cs -> (1 <= length (cs ++ tail))%nat -> tail = [] \/ (exists t, tail = 0 :: t) -> utf8_text cs u -> (length u < 2048)%nat ->
  decode c short long beyond pad (MIso8859 1) (cs ++ tail) arg = Ret (u ++ [10], []).
Proof. intros c short long beyond pad cs tail u arg. exact (iso_printed cs tail u). Qed.
Theorem C128_control_partial : forall c short long beyond pad d cs x rest u arg, Forall graphic (d :: cs) -> is_byte x -> x <> 0 -> ~ graphic x -> utf8_text (d :: cs) u -> (length u + 2 <= 2048)%nat ->
  exists e, decode c short long beyond pad (MIso8859 1) (d :: cs ++ x :: rest) arg = Ret ([], e) /\ e <> [].
Proof. intros c short long beyond pad d cs x rest u arg. exact (iso_control d cs x rest u). Qed.
Theorem C128_other_pages : forall c short long beyond pad page data arg, page <> 1 -> exists e, decode c short long beyond pad (MIso8859 page) data arg = Ret ([], e) /\ e <> [].
Proof. intros c short long beyond pad page data arg. exact (iso_other page data). Qed.
Example C128_ex : let run n s := emv_decode ex_codes (repeat 9 1024) (repeat 9 2048) [] (repeat 7) None [Decoding (MIso8859 n)] [lit s] in
  run 1 "43616665E9" = Ret (Printed ([0x43; 0x61; 0x66; 0x65; 0xC3; 0xA9; 10]) []) /\ run 1 "4307" = Ret (Printed [] (lit "iso8859_to_utf8() failed; r=2" ++ [10])) /\
  run 2 "43" = Ret (Printed [] (lit "ISO8859-2 not supported" ++ [10])).
Proof. vm_compute. auto. Qed.

Print Assumptions C125_nothing_set_refuted.
Print Assumptions C125_cut_refuted.
Print Assumptions C125_decoded_partial.
Print Assumptions C125_fits_partial.
Print Assumptions C125_fits_iad_partial.
Print Assumptions C125_third_party.
Print Assumptions C125_form_factor_versions.
Print Assumptions C125_sizes.
Print Assumptions C125_status.
Print Assumptions C125_reader.
Print Assumptions C126_hex.
Print Assumptions C126_stdin.
Print Assumptions C126_lookup.
Print Assumptions C126_refused.
Print Assumptions C126_several_refuted.
Print Assumptions C127_codes_refuted.
Print Assumptions C127_country_partial.
Print Assumptions C127_currency_partial.
Print Assumptions C127_language.
Print Assumptions C127_merchant_category.
Print Assumptions C128_text_refuted.
Print Assumptions C128_text_partial.
Print Assumptions C128_control_partial.
Print Assumptions C128_other_pages.
