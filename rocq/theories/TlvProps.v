(** Property theorems for TLV parsing and format conversions: C11 - C16. *)
From Verif Require Import Base BaseLemmas BerSpec TlvListModel TlvModel TlvSpec TlvProofs.

(** C11.  A buffer that is a forest of definite-length objects parses
    successfully and appends exactly its leaves, depth first. *)
Theorem C11_parse_flattens : forall enc ts l, forest true enc ts -> small enc ->
  tlv_parse enc l = Ret (0, l ++ flat_map leaves ts).
Proof. exact parse_forest. Qed.
Print Assumptions C11_parse_flattens.

(** C11.  Success means that the buffer and every nested template are completely
    valid.  (Nodes of indefinite length are delimited as in C05.) *)
Theorem C11_parse_success_valid : forall buf l, bytes buf -> small buf ->
  exists r added, tlv_parse buf l = Ret (r, l ++ added) /\ (r = 0 \/ r = 1) /\
    Forall (field_of buf) added /\
    (r = 0 -> exists ts, forest false buf ts /\ added = flat_map leaves ts).
Proof. exact parse_any. Qed.
Print Assumptions C11_parse_success_valid.

(** C11.  For buffers without the octet 80 (so without indefinite lengths) success
    is equivalent to validity. *)
Theorem C11_parse_success_iff : forall buf l, bytes buf -> small buf -> ~ In 128 buf ->
  exists r l', tlv_parse buf l = Ret (r, l') /\ (r = 0 <-> exists ts, forest true buf ts).
Proof. exact parse_success_iff. Qed.
Print Assumptions C11_parse_success_iff.

(** A template 70 with 5A 02 12 34 and a nested A5 holding 50 01 41, then 9F10 01 00. *)
Example C11_ex :
  forest true [0x70;9;0x5A;2;0x12;0x34;0xA5;3;0x50;1;0x41;0x9F;0x10;1;0]
    [Node 0x70 [Leaf 0x5A [0x12;0x34]; Node 0xA5 [Leaf 0x50 [0x41]]]; Leaf 0x9F10 [0]] /\
  tlv_parse [0x70;9;0x5A;2;0x12;0x34;0xA5;3;0x50;1;0x41;0x9F;0x10;1;0] [mkField 1 0 [] 7] =
  Ret (0, [mkField 1 0 [] 7; mkField 0x5A 2 [0x12;0x34] 0; mkField 0x50 1 [0x41] 0;
           mkField 0x9F10 1 [0] 0]).
Proof.
  split; [|vm_compute; reflexivity].
  assert (B : forall l, forallb (fun b => (0 <=? b) && (b <? 256)) l = true -> bytes l).
  { intros l H. apply Forall_forall. intros b Hb. rewrite forallb_forall in H.
    apply H in Hb. unfold is_byte. lia. }
  assert (E1 : forall b v, is_byte b -> b mod 32 <> 31 -> bytes v -> Zlen v < 128 ->
     encodes (b :: Zlen v :: v) b (class_bits b) v).
  { intros b v H1 H2 H3 H4. split; auto. exists [b], [Zlen v]. split; [reflexivity|].
    split; [constructor; auto|]. split; [unfold be; cbn; lia|]. split; [|reflexivity].
    constructor. pose proof (Zlen_nonneg v). lia. }
  apply (fo_node true [0x70;9;0x5A;2;0x12;0x34;0xA5;3;0x50;1;0x41] 0x70 0x60
           [0x5A;2;0x12;0x34;0xA5;3;0x50;1;0x41] _ [0x9F;0x10;1;0]).
  - apply (E1 0x70 [0x5A;2;0x12;0x34;0xA5;3;0x50;1;0x41]); [unfold is_byte; lia|discriminate|apply B; reflexivity|reflexivity].
  - reflexivity.
  - apply (fo_leaf true [0x5A;2;0x12;0x34] 0x5A 0x40 [0x12;0x34] [0xA5;3;0x50;1;0x41]).
    + apply (E1 0x5A [0x12;0x34]); [unfold is_byte; lia|discriminate|apply B; reflexivity|reflexivity].
    + reflexivity.
    + apply (fo_node true [0xA5;3;0x50;1;0x41] 0xA5 0xA0 [0x50;1;0x41] _ []).
      * apply (E1 0xA5 [0x50;1;0x41]); [unfold is_byte; lia|discriminate|apply B; reflexivity|reflexivity].
      * reflexivity.
      * apply (fo_leaf true [0x50;1;0x41] 0x50 0x40 [0x41] []).
        -- apply (E1 0x50 [0x41]); [unfold is_byte; lia|discriminate|apply B; reflexivity|reflexivity].
        -- reflexivity.
        -- constructor.
      * constructor.
  - apply (fo_leaf true [0x9F;0x10;1;0] 0x9F10 0x80 [0] []).
    + split; [apply B; reflexivity|]. exists [0x9F;0x10], [1]. split; [reflexivity|].
      split; [apply (id_high 0x9F [] 0x10); [unfold is_byte; lia|reflexivity|constructor|lia|cbn; lia]|].
      split; [reflexivity|]. split; [apply (len_short 1); lia|reflexivity].
    + reflexivity.
    + constructor.
Qed.

(** C12.  Whatever the buffer, parsing ends, keeps the prior fields and adds
    only fields of the buffer. *)
Theorem C12_parse_keeps_prior : forall buf l, bytes buf -> small buf ->
  exists r l', tlv_parse buf l = Ret (r, l') /\
    firstn (length l) l' = l /\ Forall (field_of buf) (skipn (length l) l').
Proof.
  intros buf l Hb Hs. destruct (parse_any buf l Hb Hs) as (r & added & E & _ & H & _).
  exists r, (l ++ added). split; [exact E|]. now rewrite firstn_length_app, skipn_length_app.
Qed.
Print Assumptions C12_parse_keeps_prior.
Example C12_ex : tlv_parse [0x5A;1;7;0x70;5;0x50;1;0x41;0x9F] [mkField 1 0 [] 7] =
  Ret (1, [mkField 1 0 [] 7; mkField 0x5A 1 [7] 0]) /\
  tlv_parse [0x5A;1;7;0x70;4;0x50;1;0x41;0x9F] [] = Ret (1, [mkField 0x5A 1 [7] 0; mkField 0x50 1 [0x41] 0]).
Proof. split; vm_compute; reflexivity. Qed.

(** C13.  Format n: every number, every field length. *)
Theorem C13_format_n_round_trip : forall value buf, 0 <= value < 4294967296 -> buf <> [] ->
  exists buf', uint_to_format_n value buf = Ret (Some buf') /\ length buf' = length buf /\
    bcd buf' /\ decval buf' = value mod 10 ^ (2 * Zlen buf) /\
    format_n_to_uint buf' = (0, Some (value mod 10 ^ (2 * Zlen buf))).
Proof. exact n_round_trip. Qed.
Print Assumptions C13_format_n_round_trip.
Example C13_ex : uint_to_format_n 12345 [9;9;9;9] = Ret (Some [0x00;0x01;0x23;0x45]) /\
  uint_to_format_n 12345 [9;9] = Ret (Some [0x23;0x45]) /\
  uint_to_format_n 4294967295 (repeat 0xFF 6) = Ret (Some [0x00;0x42;0x94;0x96;0x72;0x95]).
Proof. repeat split; vm_compute; reflexivity. Qed.

(** C14 is false: 00 42 94 96 72 96 is decimal, its value 2^32 does not fit, and
    the function reports success with value 0. *)
Theorem C14_format_n_overflow_refuted : exists l, bcd l /\ decval l = 4294967296 /\
  format_n_to_uint l = (0, Some 0).
Proof.
  exists [0x00;0x42;0x94;0x96;0x72;0x96]. split; [|split; vm_compute; reflexivity].
  repeat constructor; try (cbv; discriminate).
Qed.
Print Assumptions C14_format_n_overflow_refuted.

(** What holds instead: decimal fields give their value modulo 2^32, so exactly
    their value if it fits, and every other nonempty field gives an error.
    Missing: an error for decimal values of 2^32 and more. *)
Theorem C14_format_n_decode_partial : forall l, bytes l -> l <> [] ->
  (bcd l -> format_n_to_uint l = (0, Some (decval l mod 4294967296))) /\
  (~ bcd l -> fst (format_n_to_uint l) = 1 \/ fst (format_n_to_uint l) = 2).
Proof. intros l Hb Hn. split; intros H; [exact (n_to_uint_bcd l H Hn)|exact (n_to_uint_err l Hb Hn H)]. Qed.
Print Assumptions C14_format_n_decode_partial.
Example C14_ex : format_n_to_uint [0x00;0x12;0x34] = (0, Some 1234) /\
  format_n_to_uint [0x1A] = (2, Some 1).
Proof. split; vm_compute; reflexivity. Qed.

(** C15.  Format b. *)
Theorem C15_format_b_encode : forall value buf, 0 <= value < 4294967296 -> (1 <= length buf)%nat ->
  exists buf', uint_to_format_b value buf = Ret (Some buf') /\ length buf' = length buf /\
    bytes buf' /\ be buf' = value mod 256 ^ Zlen buf /\
    ((length buf <= 4)%nat -> format_b_to_uint buf' = (0, Some (value mod 256 ^ Zlen buf))).
Proof. exact b_round_trip. Qed.
Print Assumptions C15_format_b_encode.
Theorem C15_format_b_decode : forall l, bytes l ->
  format_b_to_uint l = match length l with
                       | 0%nat => (-1, None)
                       | 1%nat | 2%nat | 3%nat | 4%nat => (0, Some (be l))
                       | _ => (-2, None)
                       end.
Proof.
  intros l Hb.
  assert (Q : (length l = 0 \/ (1 <= length l <= 4) \/ 5 <= length l)%nat) by lia.
  destruct Q as [Q|[Q|Q]].
  - destruct l; [reflexivity|discriminate].
  - rewrite b_to_uint_ok by auto. destruct (length l) as [|[|[|[|[|?]]]]]; auto; lia.
  - destruct l as [|? [|? [|? [|? [|? l]]]]]; cbn in Q; try lia. reflexivity.
Qed.
Print Assumptions C15_format_b_decode.
Example C15_ex : uint_to_format_b 0x1234 [7;7;7] = Ret (Some [0;0x12;0x34]) /\
  format_b_to_uint [0xDE;0xAD;0xBE;0xEF] = (0, Some 0xDEADBEEF).
Proof. split; vm_compute; reflexivity. Qed.

(** C16.  Text conversions: only inside the buffer, always terminated, and the
    text is the accepted characters in order, as many as fit. *)
Theorem C16_ans_non_control : forall buf str, buf <> [] -> str <> [] ->
  exists str', ans_to_non_control_str buf str = Ret (0, str') /\
    text_in str str' (firstn (length str - 1) (filter non_control buf)).
Proof.
  intros buf str H1 H2. unfold ans_to_non_control_str.
  destruct buf as [|b buf]; [contradiction|]. destruct str as [|c str]; [contradiction|].
  destruct (ans_text non_control (b :: buf) (c :: str)) as (s & E & H); [cbn; lia|].
  change (ans_loop _ (b :: buf) (c :: str) 0) with (ans_loop non_control (b :: buf) (c :: str) 0).
  rewrite E. cbn [length Nat.eqb orb bind]. exists s. split; [reflexivity|exact H].
Qed.
Print Assumptions C16_ans_non_control.
Theorem C16_ans_alnum_space : forall buf str, buf <> [] -> str <> [] ->
  exists str', ans_to_alnum_space_str buf str = Ret (0, str') /\
    text_in str str' (firstn (length str - 1) (filter alnum_space buf)).
Proof.
  intros buf str H1 H2. unfold ans_to_alnum_space_str.
  destruct buf as [|b buf]; [contradiction|]. destruct str as [|c str]; [contradiction|].
  destruct (ans_text alnum_space (b :: buf) (c :: str)) as (s & E & H); [cbn; lia|].
  change (ans_loop _ (b :: buf) (c :: str) 0) with (ans_loop alnum_space (b :: buf) (c :: str) 0).
  rewrite E. cbn [length Nat.eqb orb bind]. exists s. split; [reflexivity|exact H].
Qed.
Print Assumptions C16_ans_alnum_space.
Theorem C16_binary_to_hex : forall buf str, bytes buf -> (1 <= length buf)%nat -> (1 <= length str)%nat ->
  exists str', b_to_str buf str = Ret (0, str') /\
    text_in str str' (firstn (length str - 1) (hex_text buf)).
Proof. exact b_text. Qed.
Print Assumptions C16_binary_to_hex.
Theorem C16_empty_rejected : forall buf str, buf = [] \/ str = [] ->
  ans_to_non_control_str buf str = Ret (-1, str) /\ ans_to_alnum_space_str buf str = Ret (-1, str) /\
  b_to_str buf str = Ret (-1, str).
Proof.
  intros buf str [-> | ->]; [repeat split|].
  unfold ans_to_non_control_str, ans_to_alnum_space_str, b_to_str. cbn [length Nat.eqb].
  rewrite orb_true_r. auto.
Qed.
Print Assumptions C16_empty_rejected.
Example C16_ex : ans_to_alnum_space_str [0x56;0x2D;0x31;0x80] [9;9;9;9] = Ret (0, [0x56;0x31;0;9]) /\
  ans_to_non_control_str [0x56;0x2D;0x31;0x80] [9;9;9] = Ret (0, [0x56;0x2D;0]) /\
  b_to_str [0xA0;0x07] [9;9;9;9;9;9] = Ret (0, [0x41;0x30;0x30;0x37;0;9]).
Proof. repeat split; vm_compute; reflexivity. Qed.
