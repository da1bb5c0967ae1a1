(** What is printed for EMV data, commands and responses (C120 to C123). *)
From Coq Require Import String.
From Verif Require Import Base BaseLemmas BerSpec TlvModel TlvListModel TlvSpec StrModel StrSpec CapduModel CapduSpec CapduProofs CapduProps FlagsSpec DolSpec InfoModel InfoSpec InfoProofs InfoProps
  PrintModel PrintSpec PrintProofs.
Open Scope string_scope.
Open Scope Z_scope.
Open Scope list_scope.
Notation length := List.length.

(** ** C120: lists of data objects and tags *)
Theorem C120_dol_partial e buf prefix d : bytes buf ->
  (df_name_entry buf -> print_emv_dol e buf prefix d = UB) /\ (~ df_name_entry buf -> exists txt, print_emv_dol e buf prefix d = Ret txt /\ dol_text prefix d buf txt).
Proof. apply dol_print. Qed.
Theorem C120_dol_refuted : exists e buf es, dol buf es /\ bytes buf /\ print_emv_dol e buf [] 0 = UB.
Proof.
  exists ex_env, [0x84; 0x0E], [(0x84, 14)]. split; [|split; [repeat constructor; unfold is_byte; lia|vm_compute; reflexivity]].
  apply (dol_cons [0x84] 14 [] []); [constructor; unfold is_byte; vm_compute; intuition discriminate|unfold is_byte; lia|constructor].
Qed.
Theorem C120_tag_list e buf prefix d : bytes buf -> exists txt, print_emv_tag_list e buf prefix d = Ret txt /\ tag_list_text prefix d buf txt.
Proof. apply tag_list_print. Qed.
Example C120_ex :
  print_emv_dol ex_env [0x9F; 0x37; 0x04; 0xDF; 0x01; 0x02; 0x95] (lit " ") 1 =
    Ret (lit " Data Object List:" ++ [10] ++ lit "  9F37 | Unpredictable Number [4]" ++ [10] ++ lit "  DF01 [2]" ++ [10]) /\
  print_emv_tag_list ex_env [0x82; 0x9F; 0x37; 0x9F] (lit "  ") 0 =
    Ret (lit "Tag List:" ++ [10] ++ lit "  82 | Application Interchange Profile (AIP)" ++ [10] ++ lit "  9F37 | Unpredictable Number" ++ [10]).
Proof. split; vm_compute; reflexivity. Qed.

(** ** C121: fields *)
(** C121 is false: a CDOL1 with the entry 84 0E cannot be printed. *)
Theorem C121_data_refuted : exists e junk buf ts, arrays e /\ length junk = 2048%nat /\ forest true buf ts /\ small buf /\ print_emv_text e (lit "  ") junk buf 0 false = UB.
Proof.
  exists ex_env, (repeat 0 2048), [0x8C; 0x02; 0x84; 0x0E], [Leaf 0x8C [0x84; 0x0E]]. split; [repeat split; reflexivity|]. split; [apply repeat_length|]. split; [|split; [unfold small, Zlen; cbn [length]; lia|vm_compute; reflexivity]].
  apply (fo_leaf true [0x8C; 0x02; 0x84; 0x0E] 0x8C 0x80 [0x84; 0x0E] [] []); [|reflexivity|constructor]. split; [repeat constructor; unfold is_byte; lia|]. exists [0x8C], [2].
  split; [reflexivity|]. split; [constructor; unfold is_byte; vm_compute; intuition discriminate|]. split; [reflexivity|]. split; [constructor; vm_compute; intuition discriminate|reflexivity].
Qed.
(** Otherwise every field is printed, with its octets and its description. *)
Theorem C121_data_partial e prefix junk buf ts d ign : arrays e -> (11 <= length junk)%nat -> forest true buf ts -> small buf ->
  (print_emv_text e prefix junk buf d ign = UB /\ Exists (fun f => unprintable (f_tag f) (f_val f) junk) (flat_map leaves ts)) \/
  exists txt, print_emv_text e prefix junk buf d ign = Ret txt /\ data_text (describes e junk) prefix d buf txt /\
    Forall (fun f => ~ unprintable (f_tag f) (f_val f) junk) (flat_map leaves ts).
Proof. apply print_forest. Qed.
(** The fields of a parsed list. *)
Theorem C121_list_partial e junk buf l : arrays e -> (11 <= length junk)%nat -> Forall (field_of buf) l -> small buf ->
  (print_emv_tlv_list e l junk = UB /\ Exists (fun f => unprintable (f_tag f) (f_val f) junk) l) \/
  exists txts, print_emv_tlv_list e l junk = Ret (List.concat txts) /\
    Forall2 (fun f t => exists id, identifier id /\ f_tag f = be id /\ field_text (describes e junk) (lit "  ") 1 id (f_val f) t) l txts /\
    Forall (fun f => ~ unprintable (f_tag f) (f_val f) junk) l.
Proof. apply list_print. Qed.
(** Any octets. *)
Theorem C121_safe_partial e prefix junk buf d ign : arrays e -> (11 <= length junk)%nat -> bytes buf -> small buf ->
  (exists txt, print_emv_text e prefix junk buf d ign = Ret txt) \/
  (print_emv_text e prefix junk buf d ign = UB /\
   exists pre enc post tag flags v, buf = pre ++ enc ++ post /\ encodes enc tag flags v /\ unprintable tag v junk).
Proof.
  intros Ar L B S. unfold print_emv_text, BerModel.ber_itr_init. destruct (emv_safe e prefix junk Ar L (Datatypes.S (length buf)) buf buf 0 d ign B S ltac:(lia)) as [(txt & x & ->)|(-> & X)]; [left|right; auto]. cbn [bind]. eauto.
Qed.
Example C121_ex :
  print_emv_text ex_env (lit "  ") (repeat 0 2048) [0x70; 0x0B; 0x5A; 0x03; 0x47; 0x61; 0x2F; 0x50; 0x02; 0x41; 0x42; 0xC1; 0x00; 0x9F; 0x36; 0x01; 0x07] 0 false =
    Ret (lit "70 | EMV Data Template : [11]" ++ [10] ++ lit "  5A | Application Primary Account Number (PAN) : [3] 47 61 2F (47612)" ++ [10] ++
         lit "  50 | Application Label : [2] 41 42 " ++ [34; 65; 66; 34; 10] ++ lit "  C1 : [0]" ++ [10] ++ lit "9F36 | Application Transaction Counter (ATC) : [1] 07" ++ [10]).
Proof. vm_compute. reflexivity. Qed.

(** ** C122: invalid octets *)
Theorem C122_invalid e prefix junk enc bad ts d ign : arrays e -> (11 <= length junk)%nat -> forest true enc ts -> no_object bad -> bytes bad -> small (enc ++ bad) ->
  (print_emv_text e prefix junk (enc ++ bad) d ign = UB /\ Exists (fun f => unprintable (f_tag f) (f_val f) junk) (flat_map leaves ts)) \/
  exists txt code, data_text (describes e junk) prefix d enc txt /\ Forall (fun f => ~ unprintable (f_tag f) (f_val f) junk) (flat_map leaves ts) /\ 1 <= code <= 11 /\
    ((ign = true /\ padding (enc ++ bad) bad) -> print_emv_text e prefix junk (enc ++ bad) d ign = Ret (txt ++ padding_text prefix d bad)) /\
    (~ (ign = true /\ padding (enc ++ bad) bad) -> print_emv_text e prefix junk (enc ++ bad) d ign = Ret (txt ++ error_text code (Zlen enc) bad)).
Proof. apply print_invalid. Qed.
(** The same inside templates: everything before is printed, and the offset is that of the first
    invalid octet. *)
Theorem C122_nested e prefix junk buf off d : arrays e -> (11 <= length junk)%nat -> broken buf off -> bytes buf -> small buf ->
  (print_emv_text e prefix junk buf d false = UB /\ exists pre enc post tag flags v, buf = pre ++ enc ++ post /\ encodes enc tag flags v /\ unprintable tag v junk) \/
  exists txt, print_emv_text e prefix junk buf d false = Ret (txt ++ lit " at offset " ++ decimal_text off ++ lit "; remaining invalid data:" ++ spaced (skipn (Z.to_nat off) buf) ++ nl) /\
    broken_text (describes e junk) prefix d buf off txt.
Proof. apply print_broken. Qed.
Example C122_ex :
  print_emv_text ex_env (lit " ") (repeat 0 2048) [0x70; 0x04; 0xC1; 0x00; 0xC2; 0x05; 0xC3; 0x00] 0 false =
    Ret (lit "70 | EMV Data Template : [4]" ++ [10] ++ lit " C1 : [0]" ++ [10] ++ lit "BER decoding error -11 at offset 4; remaining invalid data: C2 05 C3 00" ++ [10]) /\
  print_emv_text ex_env (lit " ") (repeat 0 2048) [0xC1; 0x00; 0xC2; 0x00; 0xC3; 0x05; 0xC4; 0x00] 1 true =
    Ret (lit " C1 : [0]" ++ [10] ++ lit " C2 : [0]" ++ [10] ++ lit " Padding : [4] C3 05 C4 00" ++ [10]).
Proof. split; vm_compute; reflexivity. Qed.

(** ** C123: commands and responses *)
Theorem C123_response r sw1 sw2 junk : bytes r -> is_byte sw1 -> is_byte sw2 -> junk <> [] ->
  exists s, (forall str, str <> [] -> exists new, sw1sw2_get_string sw1 sw2 str = Ret (true, new) /\ shown str new s) /\
    print_rapdu (r ++ [sw1; sw2]) junk = Ret (hex_text (r ++ [sw1; sw2]) ++ match firstn (length junk - 1) s with [] => [] | t => lit " (" ++ t ++ lit ")" end ++ nl).
Proof. apply rapdu_print. Qed.
Theorem C123_short_response r junk : bytes r -> (length r < 2)%nat -> print_rapdu r junk = Ret (match r with [] => lit "(null)" | _ => hex_text r end ++ nl).
Proof.
  intros B L. unfold print_rapdu. destruct r as [|a [|b r]]; [reflexivity| |cbn [length] in L; lia]. cbn [length Nat.eqb Nat.ltb Nat.leb]. rewrite hex_02X by exact B. reflexivity.
Qed.
(** C123 is false for commands: the second octet of a one-octet command is read. *)
Theorem C123_command_refuted : exists c junk jid, bytes c /\ length junk = 1024%nat /\ length jid = 511%nat /\ print_capdu c junk jid = UB.
Proof. exists [0x00], (repeat 0 1024), (repeat 0 511). split; [repeat constructor; unfold is_byte; lia|]. split; [apply repeat_length|]. split; [apply repeat_length|]. vm_compute. reflexivity. Qed.
Theorem C123_command_partial c junk jid : bytes c -> (4 <= length c)%nat -> (4 <= length junk)%nat -> length jid = 511%nat ->
  exists r new s, emv_capdu_get_string c junk jid = Ret (r, new) /\ cstring new = Some s /\ print_capdu c junk jid = Ret (hex_text c ++ (if r =? 0 then lit " (" ++ s ++ lit ")" else []) ++ nl).
Proof.
  intros B L Lj Li. assert (NE : c <> []) by (intros ->; cbn in L; lia). assert (NJ : junk <> []) by (intros ->; cbn in Lj; lia).
  destruct (C55_capdu_partial c junk jid B NE NJ Li) as (_ & X). cbn zeta in X. destruct X as (r & new & s & E & _ & C); [intros (_ & [(Q & _)|(Q & _)]); lia|]. exists r, new, s. split; [exact E|]. split; [exact C|]. eapply capdu_print; eauto.
Qed.
Theorem C123_no_command junk jid : print_capdu [] junk jid = Ret (lit "(null)" ++ nl).
Proof. reflexivity. Qed.
Example C123_ex : print_capdu [0x80; 0xCA; 0x9F; 0x17; 0x00] (repeat 7 1024) (repeat 7 511) = Ret (lit "80CA9F1700 (GET DATA field 9F17)" ++ [10]) /\
  print_capdu [0x00; 0xA5; 0x00; 0x00] (repeat 7 1024) (repeat 7 511) = Ret (lit "00A50000" ++ [10]) /\
  print_rapdu [0x6F; 0x00; 0x6A; 0x82] (repeat 7 1024) = Ret (lit "6F006A82 (Checking error: File or application not found)" ++ [10]) /\
  print_sw1sw2 0x90 0x00 (repeat 7 1024) = Ret (lit "SW1SW2: 9000 (Normal)" ++ [10]).
Proof. repeat split; vm_compute; reflexivity. Qed.

Print Assumptions C120_dol_partial. Print Assumptions C120_dol_refuted. Print Assumptions C120_tag_list. Print Assumptions C121_data_refuted. Print Assumptions C121_data_partial. Print Assumptions C121_list_partial. Print Assumptions C121_safe_partial. Print Assumptions C122_invalid. Print Assumptions C122_nested. Print Assumptions C123_response. Print Assumptions C123_short_response. Print Assumptions C123_command_refuted. Print Assumptions C123_command_partial. Print Assumptions C123_no_command.
