(** Property C165: decoding and parsing take bounded time and stack. *)
From Verif Require Import Base BaseLemmas BerModel BerSpec BerProofs TlvListModel TlvModel TlvSpec TlvProofs CostModel CostProofs.

(** Decoding one object: at most one call for each octet and one more, and one frame for every two octets and one more. *)
Theorem C165_decode : forall buf, bytes buf -> small buf -> exists r t calls frames, decode_c (S (length buf)) buf = Ret (r, t, (calls, frames)) /\ ber_decode buf = Ret (r, t) /\
  1 <= calls <= Zlen buf + 1 /\ 1 <= frames /\ 2 * frames <= Zlen buf + 2.
Proof.
  intros buf B S. destruct (decode_cost_total buf B S) as (r & t & [calls frames] & D & E & _ & (C1 & C2 & C3 & C4 & _)). cbn [fst snd] in *. exists r, t, calls, frames. repeat split; try assumption; lia.
Qed.
(** Parsing data into a list. *)
Theorem C165_parse : forall buf l, bytes buf -> small buf -> exists e l' calls frames, parse_c buf l = Ret (e, l', (calls, frames)) /\ tlv_parse buf l = Ret (e, l') /\
  1 <= calls /\ 4 * calls <= (Zlen buf + 2) ^ 2 /\ 1 <= frames /\ 2 * frames <= Zlen buf + 6.
Proof.
  intros buf l B S. destruct (parse_loop_cost (Datatypes.S (length buf)) (ber_itr_init buf) l B S) as (e & l' & c & E & C1 & C2 & C3 & C4); [unfold ber_itr_init; lia|].
  exists e, l', (fst c), (1 + snd c). unfold parse_c, tlv_parse. rewrite parse_loop_same, E. cbn [bind]. unfold ber_itr_init in *. rewrite Z.pow_2_r. repeat split; lia.
Qed.
(** The response to a command holds 256 octets at most. *)
Theorem C165_record : forall buf l, bytes buf -> Zlen buf <= 256 -> exists e l' calls frames, parse_c buf l = Ret (e, l', (calls, frames)) /\ tlv_parse buf l = Ret (e, l') /\ calls <= 16641 /\ frames <= 131.
Proof.
  intros buf l B L. destruct (C165_parse buf l B) as (e & l' & calls & frames & E & P & _ & C & _ & F); [unfold small; lia|]. exists e, l', calls, frames. split; [exact E|]. split; [exact P|].
  assert (0 <= Zlen buf) by (unfold Zlen; lia). assert ((Zlen buf + 2) ^ 2 <= 258 ^ 2) by (apply Z.pow_le_mono_l; lia). split; lia.
Qed.

(** The bounds cannot be replaced by constants: templates in templates. *)
Fixpoint nested (k : nat) : list Z := match k with O => [] | S k => 0x30 :: 0x80 :: nested k end.
Lemma nested_length k : length (nested k) = (2 * k)%nat.
Proof. induction k as [|k IH]; [reflexivity|]. cbn [nested length]. lia. Qed.
Lemma nested_indef f k : indef_c f (0x30 :: 0x80 :: nested k) 2 0 = match f with O => NoFuel | S f => let* (r, inner, c) := decode_c f (nested k) in
    if r <? 0 then Ret (-7, 0, c) else if r =? 0 then Ret (-8, 0, c) else match inner with None => UB | Some t => if b_tag t =? 0 then Ret (0, 0, c)
      else let* (e, l, c2) := indef_c f (0x30 :: 0x80 :: nested k) 2 (u32 (0 + r)) in Ret (e, l, then_cost c c2) end end.
Proof. destruct f as [|f]; [reflexivity|]. cbn [indef_c]. rewrite sub_rest by (cbn [length]; lia). reflexivity. Qed.
Lemma nested_frames : forall k fuel, (2 * k < fuel)%nat -> exists r c, decode_c fuel (nested k) = Ret (r, None, c) /\ r <= 0 /\ fst c = Z.of_nat k + 1 /\ snd c = Z.of_nat k + 1.
Proof.
  induction k as [|k IH]; intros fuel F; (destruct fuel as [|fuel]; [lia|]).
  - exists 0, leaf_cost. split; [reflexivity|]. unfold leaf_cost. cbn [fst snd]. lia.
  - destruct fuel as [|fuel]; [lia|]. destruct (IH fuel) as (r & c & E & R & C1 & C2); [lia|]. cbn [decode_c nested].
    change (ber_tag_decode (0x30 :: 0x80 :: nested k)) with (Ret (1, 0x30)). cbn [bind]. cbn [length Nat.eqb Nat.ltb Nat.leb]. change (1 <=? 0) with false. change (Z.to_nat 1) with 1%nat.
    change (rd (0x30 :: 0x80 :: nested k) 0) with (Ret 0x30). change (rd (0x30 :: 0x80 :: nested k) 1) with (Ret 0x80). cbn [bind Nat.leb]. change (0x80 =? 128) with true. change (Z.land 0x30 32 =? 0) with false. cbv iota.
    rewrite nested_indef, E. cbn [bind]. assert (Q : exists q, (if r <? 0 then Ret (-7, 0, c) else if r =? 0 then Ret (-8, 0, c) else UB) = Ret (q, 0, c) /\ q < 0).
    { destruct (Z.ltb_spec r 0); [eexists; split; [reflexivity|lia]|]. destruct (Z.eqb_spec r 0); [eexists; split; [reflexivity|lia]|lia]. }
    destruct Q as (q & -> & Hq). cbn [bind]. destruct (Z.ltb_spec q 0); [|lia]. eexists q, _. split; [reflexivity|]. cbn [fst snd]. lia.
Qed.
Theorem C165_deep : forall k, bytes (nested k) /\ Zlen (nested k) = 2 * Z.of_nat k /\
  exists r calls frames, decode_c (S (length (nested k))) (nested k) = Ret (r, None, (calls, frames)) /\ calls = Z.of_nat k + 1 /\ 2 * frames = Zlen (nested k) + 2.
Proof.
  intros k. split; [|split; [unfold Zlen; rewrite nested_length; lia|]].
  - induction k as [|k IH]; [constructor|]. cbn [nested]. constructor; [unfold is_byte; lia|]. constructor; [unfold is_byte; lia|exact IH].
  - destruct (nested_frames k (Datatypes.S (length (nested k)))) as (r & [calls frames] & E & _ & C1 & C2); [rewrite nested_length; lia|]. cbn [fst snd] in *.
    exists r, calls, frames. split; [exact E|]. split; [exact C1|]. unfold Zlen. rewrite nested_length. lia.
Qed.
(** A template with two fields, parsed into a list: a call for each object and one for the end of each level. *)
Example C165_ex : parse_c [0x70; 0x06; 0x5A; 0x01; 0x12; 0x57; 0x01; 0x34] [] = Ret (0, [mkField 0x5A 1 [0x12] 0; mkField 0x57 1 [0x34] 0], (5, 4)) /\
  parse_c [0x70; 0x80; 0x5A; 0x01; 0x12; 0x00; 0x00] [] = Ret (0, [mkField 0x5A 1 [0x12] 0; mkField 0 0 [] 0], (7, 4)).
Proof. split; vm_compute; reflexivity. Qed.
Print Assumptions C165_decode.
Print Assumptions C165_parse.
Print Assumptions C165_record.
Print Assumptions C165_deep.
