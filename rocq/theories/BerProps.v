(** Properties C01-C07 (src/iso8825_ber.c). *)
From Verif Require Import Base BerModel BerSpec BerProofs.

(** C01 *)
Theorem C01_ber_decode_sound : forall buf r t, bytes buf -> small buf ->
  ber_decode buf = Ret (r, t) -> 0 < r ->
  exists o, t = Some o /\
  exists id tl, buf = id ++ tl /\ identifier id /\ b_tag o = be id /\
    b_flags o = class_bits (hd 0 id) /\
    ((exists lf rest, tl = lf ++ b_val o ++ rest /\ length_octets lf (b_len o) /\
        b_len o = Zlen (b_val o) /\ r = Zlen id + Zlen lf + b_len o /\
        b_off o = (length id + length lf)%nat)
     \/ (exists rest, tl = 128 :: rest)).
Proof. exact ber_decode_sound_ret. Qed.
Print Assumptions C01_ber_decode_sound.

Example C01_example :
  exists t, ber_decode [0x9F; 0x02; 0x81; 0x03; 1; 2; 3; 0xFF] = Ret (7, Some t) /\
    b_tag t = 0x9F02 /\ b_val t = [1; 2; 3].
Proof. eexists; split; [vm_compute; reflexivity|split; reflexivity]. Qed.

(** C02 *)
Theorem C02_ber_decode_complete : forall enc tag flags v rest,
  encodes enc tag flags v -> small (enc ++ rest) ->
  ber_decode (enc ++ rest) =
    Ret (Zlen enc, Some (mkBer tag (Zlen v) (length enc - length v) v flags)).
Proof. exact ber_decode_encodes_eq. Qed.
Print Assumptions C02_ber_decode_complete.

Example C02_example : encodes [0x9F; 0x81; 0x02; 0x82; 0x00; 0x02; 7; 8] 0x9F8102 0x80 [7; 8].
Proof.
  split; [repeat constructor; unfold is_byte; discriminate|].
  exists [0x9F; 0x81; 0x02], [0x82; 0x00; 0x02]. repeat split.
  - apply (id_high 0x9F [0x81] 0x02); try (repeat constructor; discriminate); vm_compute; auto.
  - apply (len_long [0x00; 0x02]); repeat constructor; discriminate.
Qed.

(** C03.  The outcome is never [UB], the length of the buffer is sufficient fuel
    for every nesting depth, and every reported value lies inside the buffer. *)
Theorem C03_ber_decode_memory_safe : forall buf, bytes buf -> small buf ->
  (exists r tag, ber_tag_decode buf = Ret (r, tag) /\ r <= Zlen buf) /\
  (exists r t, ber_decode buf = Ret (r, t) /\ r <= Zlen buf /\
     (0 < r <-> t <> None) /\
     forall o, t = Some o ->
       0 <= b_len o /\ Z.of_nat (b_off o) + b_len o = r /\
       b_val o = firstn (Z.to_nat (b_len o)) (skipn (b_off o) buf)) /\
  (forall fuel, (length buf < fuel)%nat -> ber_decode_f fuel buf = ber_decode buf).
Proof. exact ber_memory_safe. Qed.
Print Assumptions C03_ber_decode_memory_safe.

Example C03_example_nested :
  exists t, ber_decode [0x6F; 0x80; 0x70; 0x80; 0x50; 0x01; 0x41; 0; 0; 0; 0] = Ret (7, Some t)
    /\ b_val t = [0x70; 0x80; 0x50; 0x01; 0x41].
Proof. eexists; split; vm_compute; reflexivity. Qed.

(** C04 *)
Theorem C04_ber_iteration_exact : forall encs objs fuel,
  Forall2 (fun e o => let '(tag, l, v, flags) := o in encodes e tag flags v /\ l = Zlen v)
    encs objs ->
  small (concat encs) -> (length (concat encs) < fuel)%nat ->
  exists ts, ber_itr_all fuel (concat encs) = Ret (ts, 0) /\
    map (fun t => (b_tag t, b_len t, b_val t, b_flags t)) ts = objs.
Proof. exact itr_all_encodes. Qed.
Print Assumptions C04_ber_iteration_exact.

(** On any buffer: the visited objects are adjacent pieces of at least two octets,
    each the encoding of the reported object (the second alternative is the
    indefinite form, whose end-of-contents is not part of the piece, see C05), and
    iteration stops at the end or at octets that do not decode. *)
Theorem C04_ber_iteration_any_buffer : forall buf, bytes buf -> small buf ->
  exists ts e ps rest, ber_itr_all (S (length buf)) (ber_itr_init buf) = Ret (ts, e) /\
    buf = concat ps ++ rest /\ e <= 0 /\ (e = 0 <-> rest = []) /\
    ber_decode rest = Ret (e, None) /\ Forall (fun p => (2 <= length p)%nat) ps /\
    Forall2 (fun p t =>
      encodes p (b_tag t) (b_flags t) (b_val t) /\ b_len t = Zlen (b_val t) \/
      exists id, p = id ++ 128 :: b_val t /\ identifier id /\ constructed (hd 0 id) /\
        b_tag t = be id /\ b_flags t = class_bits (hd 0 id) /\ b_len t = Zlen (b_val t)) ps ts.
Proof. exact itr_all_any. Qed.
Print Assumptions C04_ber_iteration_any_buffer.

Example C04_example :
  exists ts, ber_itr_all 9 [0x50; 0x01; 0x41; 0x5A; 0x02; 0x12; 0x34; 0x87] = Ret (ts, -2) /\
    map b_tag ts = [0x50; 0x5A].
Proof. eexists; split; vm_compute; reflexivity. Qed.

(** C05.  The full statement would be that decoding
    [id ++ [128] ++ contents ++ [0; 0] ++ rest] consumes everything up to [rest]
    and that the value is the contents, also if the contents hold an
    indefinite-length object.  Both parts are false. *)
Theorem C05_indefinite_consumed_refuted :
  exists id encs rest, identifier id /\ constructed (hd 0 id) /\
    Forall (fun e => exists tag fl v, encodes e tag fl v /\ tag <> 0) encs /\
    let buf := id ++ [128] ++ concat encs ++ [0; 0] ++ rest in
    exists r t, ber_decode buf = Ret (r, Some t) /\ 0 < r /\
      r <> Zlen buf - Zlen rest.
Proof.
  exists [0x6F], [[0x84; 0x01; 0xAA]], [0x50; 0x00].
  split; [constructor; [unfold is_byte; split; [discriminate|reflexivity]|discriminate]|].
  split; [reflexivity|]. split.
  - constructor; [|constructor]. exists 0x84, 0x80, [0xAA]. split; [|discriminate].
    split; [repeat constructor; unfold is_byte; discriminate|].
    exists [0x84], [0x01]. repeat split.
    + constructor; [unfold is_byte; split; [discriminate|reflexivity]|discriminate].
    + apply (len_short 1). split; [discriminate|reflexivity].
  - do 2 eexists. split; [vm_compute; reflexivity|]. split; [reflexivity|discriminate].
Qed.
Print Assumptions C05_indefinite_consumed_refuted.

(** 6F 80 { 70 80 { 50 01 41 } 00 00, 5A 01 11 } 00 00: the value reported for the
    outer object ends at the inner end-of-contents. *)
Theorem C05_nested_indefinite_refuted :
  exists id inner after, identifier id /\ constructed (hd 0 id) /\
    (exists id2 c, inner = id2 ++ [128] ++ c ++ [0; 0] /\ identifier id2 /\
       constructed (hd 0 id2) /\ encodes c 0x50 0x40 [0x41]) /\
    encodes after 0x5A 0x40 [0x11] /\
    exists r t, ber_decode (id ++ [128] ++ (inner ++ after) ++ [0; 0]) = Ret (r, Some t) /\
      0 < r /\ b_val t <> inner ++ after.
Proof.
  assert (E : forall b x, is_byte b -> is_byte x -> b mod 32 <> 31 ->
            encodes [b; 0x01; x] b (class_bits b) [x]).
  { intros b x Hb Hx H. split; [repeat constructor; apply Hx|].
    exists [b], [0x01]. repeat split.
    - constructor; auto.
    - apply (len_short 1). split; [discriminate|reflexivity]. }
  exists [0x6F], [0x70; 0x80; 0x50; 0x01; 0x41; 0; 0], [0x5A; 0x01; 0x11].
  split; [constructor; [unfold is_byte; split; [discriminate|reflexivity]|discriminate]|].
  split; [reflexivity|]. split.
  - exists [0x70], [0x50; 0x01; 0x41]. split; [reflexivity|].
    split; [constructor; [unfold is_byte; split; [discriminate|reflexivity]|discriminate]|].
    split; [reflexivity|]. apply (E 0x50 0x41); try (unfold is_byte; split; [discriminate|reflexivity]).
    discriminate.
  - split.
    + apply (E 0x5A 0x11); try (unfold is_byte; split; [discriminate|reflexivity]). discriminate.
    + do 2 eexists. split; [vm_compute; reflexivity|]. split; [reflexivity|discriminate].
Qed.
Print Assumptions C05_nested_indefinite_refuted.

(** What holds: with definite-length contents the value is exactly the contents,
    and the header and contents (but not the end-of-contents) are consumed. *)
Theorem C05_indefinite_value_partial : forall id encs objs rest,
  identifier id -> constructed (hd 0 id) ->
  Forall2 (fun e o => let '(tag, v, fl) := o in encodes e tag fl v /\ tag <> 0) encs objs ->
  bytes rest -> small (id ++ [128] ++ concat encs ++ [0; 0] ++ rest) ->
  ber_decode (id ++ [128] ++ concat encs ++ [0; 0] ++ rest) =
   Ret (Zlen (id ++ [128] ++ concat encs),
        Some (mkBer (be id) (Zlen (concat encs)) (length id + 1) (concat encs)
                (class_bits (hd 0 id)))).
Proof. exact ber_decode_indef. Qed.
Print Assumptions C05_indefinite_value_partial.

(** C06 *)
Theorem C06_oid_decode_exact : forall b0 a1 a2 encs vs,
  0 <= b0 < 128 -> 0 <= a1 <= 2 -> 0 <= a2 -> (a1 < 2 -> a2 < 40) -> b0 = 40 * a1 + a2 ->
  Forall2 (fun e v => subidentifier e v /\ v < 4294967296) encs vs ->
  (length (concat encs) < 39)%nat -> (length vs <= 8)%nat ->
  oid_decode (b0 :: concat encs) =
    Ret (0, mkOid ((a1 :: a2 :: vs) ++ repeat 0 (8 - length vs)) (2 + length vs)).
Proof. exact oid_decode_run. Qed.
Print Assumptions C06_oid_decode_exact.

(** 1.2.840.113549 *)
Example C06_example : subidentifier [0x86; 0x48] 840 /\ subidentifier [0x86; 0xF7; 0x0D] 113549 /\
  oid_decode [0x2A; 0x86; 0x48; 0x86; 0xF7; 0x0D] =
    Ret (0, mkOid [1; 2; 840; 113549; 0; 0; 0; 0; 0; 0] 4).
Proof.
  split; [|split].
  - exists [0x86], 0x48. repeat split; try discriminate; try reflexivity.
    repeat constructor; discriminate.
  - exists [0x86; 0xF7], 0x0D. repeat split; try discriminate; try reflexivity.
    repeat constructor; discriminate.
  - vm_compute. reflexivity.
Qed.

(** C07.  Full statement: [forall buf, bytes buf -> oid_decode buf <> UB].  False
    for eleven components; the exact condition is given by the partial theorem. *)
Theorem C07_oid_out_of_bounds_refuted :
  exists buf, bytes buf /\ (length buf < 40)%nat /\ oid_decode buf = UB.
Proof.
  exists [0x2A; 1; 2; 3; 4; 5; 6; 7; 8; 9]. split.
  - repeat constructor; discriminate.
  - split; [vm_compute; repeat constructor|vm_compute; reflexivity].
Qed.
Print Assumptions C07_oid_out_of_bounds_refuted.

Theorem C07_oid_bounds_partial : forall buf, bytes buf ->
  if Nat.leb 1 (length buf) && Nat.ltb (length buf) 40 && Nat.ltb 8 (subid_count (tl buf))
  then oid_decode buf = UB
  else exists r o, oid_decode buf = Ret (r, o) /\ (o_length o <= 10)%nat /\
         length (o_value o) = 10%nat /\
         (r = 0 -> o_length o = (2 + subid_count (tl buf))%nat).
Proof. exact oid_decode_safe. Qed.
Print Assumptions C07_oid_bounds_partial.
