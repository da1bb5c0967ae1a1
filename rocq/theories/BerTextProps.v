(** Property C164: the text printed for BER data. *)
From Coq Require Import String.
From Verif Require Import Base BaseLemmas BerModel BerSpec BerProofs TlvModel TlvListModel TlvSpec TlvProofs StrModel StrSpec FlagsSpec InfoModel ToolsModel ToolsSpec PrintModel PrintSpec
  BerTextModel BerTextSpec BerTextProofs DecodeModel.
Open Scope string_scope.
Open Scope Z_scope.
Open Scope list_scope.
Notation length := List.length.

(** Well-formed data: a line for each object, indented by two spaces for each object it is in. *)
Theorem C164_ber_text : forall c short long beyond pad data arg txt, small data -> ber_text (lit "  ") 0 data txt ->
  decode c short long beyond pad MBer data arg = Ret (txt, []).
Proof. intros c short long beyond pad data arg txt S T. cbn [decode]. rewrite (text_printed (lit "  ") data 0 pad txt S T). reflexivity. Qed.
(** All well-formed data whose object identifiers can be shown has such lines. *)
Theorem C164_every_partial : forall prefix enc ts d, forest true enc ts -> (forall f, In f (flat_map leaves ts) -> f_tag f = 6 -> plain_oid (f_val f)) ->
  exists txt, ber_text prefix d enc txt.
Proof. intros prefix enc ts d F O. exact (text_exists prefix enc ts F O d). Qed.
(** Octets that do not begin with an object: the lines before, and padding or the error with offset and octets. *)
Theorem C164_invalid : forall c short long beyond pad enc bad arg txt, ber_text (lit "  ") 0 enc txt -> no_object bad -> bytes bad -> small (enc ++ bad) ->
  exists code, 1 <= code <= 11 /\
    (pad = true /\ padding (enc ++ bad) bad -> decode c short long beyond pad MBer (enc ++ bad) arg = Ret (txt ++ padding_text (lit "  ") 0 bad, [])) /\
    (~ (pad = true /\ padding (enc ++ bad) bad) -> decode c short long beyond pad MBer (enc ++ bad) arg = Ret (txt ++ error_text code (Zlen enc) bad, [])).
Proof.
  intros c short long beyond pad enc bad arg txt T N B S. destruct (invalid_printed (lit "  ") enc bad txt 0 pad T N B S) as (code & R & X & Y). exists code. split; [exact R|]. cbn [decode].
  split; [intros H; rewrite (X H)|intros H; rewrite (Y H)]; reflexivity.
Qed.
(** The same inside constructed objects. *)
Theorem C164_nested : forall c short long beyond data off arg txt0, ber_broken (lit "  ") 0 data off txt0 -> bytes data -> small data ->
  exists txt, ber_broken (lit "  ") 0 data off txt /\
    decode c short long beyond false MBer data arg = Ret (txt ++ lit " at offset " ++ decimal_text off ++ lit "; remaining invalid data:" ++ spaced (skipn (Z.to_nat off) data) ++ nl, []).
Proof.
  intros c short long beyond data off arg txt0 Br B S. destruct (broken_printed (lit "  ") data off 0 txt0 Br B S) as (txt & Bt & E). exists txt. split; [exact Bt|]. cbn [decode]. rewrite E. reflexivity.
Qed.
(** It fails for an object identifier that is not decoded (empty, or of 40 octets or more): its line is not ended,
    the error follows in it though the data is well formed, and the objects after it are not listed. *)
Theorem C164_oid_refuted : exists data ts, forest true data ts /\ length ts = 2%nat /\
  (forall c short long beyond pad arg, decode c short long beyond pad MBer data arg = Ret (lit "06 : [0]BER decoding error -1 at offset 2; remaining invalid data: 02 01 05" ++ [10], [])).
Proof.
  exists [0x06; 0x00; 0x02; 0x01; 0x05], [Leaf 6 []; Leaf 2 [0x05]]. split; [|split; [reflexivity|intros c short long beyond [|] arg; vm_compute; reflexivity]].
  assert (I6 : identifier [0x06]) by (constructor; [unfold is_byte; lia|discriminate]). assert (I2 : identifier [0x02]) by (constructor; [unfold is_byte; lia|discriminate]).
  assert (E1 : encodes [0x06; 0x00] 6 0 []).
  { split; [constructor|]. exists [0x06], [0x00]. split; [reflexivity|]. split; [exact I6|]. split; [reflexivity|]. split; [apply len_short; cbn; lia|reflexivity]. }
  assert (E2 : encodes [0x02; 0x01; 0x05] 2 0 [0x05]).
  { split; [repeat constructor; unfold is_byte; lia|]. exists [0x02], [0x01]. split; [reflexivity|]. split; [exact I2|]. split; [reflexivity|]. split; [apply (len_short 1); lia|reflexivity]. }
  exact (fo_leaf true _ 6 0 [] _ _ E1 eq_refl (fo_leaf true _ 2 0 [0x05] [] [] E2 eq_refl (fo_nil true))).
Qed.
Example C164_ex : let t0 := mkCodes (mkEnv (fun _ => None) (fun _ => None) (fun _ => None) (fun _ => None) (fun _ => None) (fun _ => None) [] [] [] []) (fun _ => None) (fun _ => None) in
  decode t0 [] [] [] false MBer [0x30; 0x09; 0x06; 0x03; 0x2A; 0x86; 0x48; 0x0C; 0x02; 0x48; 0x69; 0x02; 0x01; 0x05] [] =
    Ret (lit "30 : [9]" ++ [10] ++ lit "  06 : [3] 2A 86 48 {1 2 840}" ++ [10] ++ lit "  0C : [2] 48 69 " ++ [34] ++ lit "Hi" ++ [34; 10] ++ lit "02 : [1] 05" ++ [10], []) /\
  decode t0 [] [] [] false MBer [0x30; 0x03; 0x02; 0x01; 0x05; 0x80] [] =
    Ret (lit "30 : [3]" ++ [10] ++ lit "  02 : [1] 05" ++ [10] ++ lit "BER decoding error -2 at offset 5; remaining invalid data: 80" ++ [10], []).
Proof. split; vm_compute; reflexivity. Qed.
Print Assumptions C164_ber_text.
Print Assumptions C164_every_partial.
Print Assumptions C164_invalid.
Print Assumptions C164_nested.
Print Assumptions C164_oid_refuted.
