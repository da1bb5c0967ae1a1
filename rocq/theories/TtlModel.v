(** Model of src/emv_ttl.c and the C-APDU helpers of src/iso7816_apdu.h. *)
From Verif Require Import Base.

(** ** src/iso7816_apdu.h *)

(** src/iso7816_apdu.h lines 73-82 [enum iso7816_apdu_case_t] *)
Definition CASE_1 := 0. Definition CASE_2S := 1. Definition CASE_2E := 2.
Definition CASE_3S := 3. Definition CASE_3E := 4. Definition CASE_4S := 5. Definition CASE_4E := 6.

(** src/iso7816_apdu.h lines 91-139 [iso7816_apdu_case] *)
Definition apdu_case (c : list Z) : out Z :=
  if Zlen c <? 4 then Ret (-1)
  else if Zlen c =? 4 then Ret CASE_1
  else if Zlen c =? 5 then Ret CASE_2S
  else
    let* c5 := rd c 4 in
    if negb (c5 =? 0) then
      if 5 + c5 =? Zlen c then Ret CASE_3S
      else if 6 + c5 =? Zlen c then Ret CASE_4S
      else Ret (-2)
    else if Zlen c =? 7 then Ret CASE_2E
    else if 7 <? Zlen c then
      let* c6 := rd c 6 in                                           (* line 120 *)
      let* c7 := rd c 7 in                                           (* line 121 *)
      let n := Z.shiftl c6 8 + c7 in
      if negb (n =? 0) then
        if 7 + n =? Zlen c then Ret CASE_3E
        else if 9 + n =? Zlen c then Ret CASE_4E
        else Ret (-2)
      else Ret (-2)
    else Ret (-2).

(** src/iso7816_apdu.h lines 216-220 [iso7816_sw1sw2_is_warning] *)
Definition is_warning (sw1 sw2 : Z) : bool := (sw1 =? 0x62) || (sw1 =? 0x63).

(** ** src/emv_ttl.c lines 32-424 [emv_ttl_trx] *)

(** src/emv_ttl.h lines 43-47: reader mode *)
Inductive mode := ModeApdu | ModeTpdu.

(** A card with its reader, [emv_cardreader_trx_t] (src/emv_ttl.h 49-56): from its
    state and the transmitted octets to the next state, the return value of the
    callback and the octets written to [rx_buf] (their number is [rx_len]). *)
Definition cardfn (S : Type) := S -> list Z -> S * (Z * list Z).

(** [tx_buf]: into the command or to [c_tpdu_header]. *)
Inductive txptr := TxCmd (off : nat) | TxHdr.

(** The variables of the loop.  [t_data] is [c_tpdu_data - c_apdu] or NULL,
    [t_rpos] is [r_apdu_ptr - r_apdu]. *)
Record tvars (S : Type) := mkT {
  t_card : S; t_hdr : list Z; t_data : option nat; t_tx : txptr; t_txlen : nat;
  t_r : list Z; t_rpos : nat; t_rlen : Z; t_sw : Z }.
Arguments mkT {S}. Arguments t_card {S}. Arguments t_hdr {S}. Arguments t_data {S}.
Arguments t_tx {S}. Arguments t_txlen {S}. Arguments t_r {S}. Arguments t_rpos {S}.
Arguments t_rlen {S}. Arguments t_sw {S}.

(** Return value, [r_apdu], [*r_apdu_len], [*sw1sw2] and the card's state. *)
Record tres (S : Type) := mkR { o_ret : Z; o_buf : list Z; o_len : Z; o_sw : Z; o_card : S }.
Arguments mkR {S}. Arguments o_ret {S}. Arguments o_buf {S}. Arguments o_len {S}.
Arguments o_sw {S}. Arguments o_card {S}.

Inductive titer (S : Type) := Again (v : tvars S) | Done (r : tres S).
Arguments Again {S}. Arguments Done {S}.

(** The octets at [tx_buf + i]. [mem] is the memory starting at [c_apdu]. *)
Definition tx_mem (mem hdr : list Z) (p : txptr) (i n : nat) : out (list Z) :=
  match p with TxCmd off => sub mem (off + i) n | TxHdr => sub hdr i n end.

Section Trx.
Context {S : Type} (card : cardfn S) (md : mode).
(** [mem]: memory readable at [c_apdu], the [clen] octets of the command first. *)
Context (mem : list Z) (clen : nat) (cs : Z).

Definition case_2_4 : bool := ((cs =? CASE_2S) || (cs =? CASE_4S))%bool.

(** Lines 195-258: response of a single procedure byte. *)
Definition trx_procedure (v : tvars S) (s : S) (ins b : Z) : out (titer S) :=
  let fail code :=
    let* r' := put (t_r v) 0 [b] in Ret (Done (mkR code r' 1 (t_sw v) s)) in
  if b =? 0x60 then fail 3                                           (* 199-206 *)
  else if b =? ins then                                              (* 208-224 *)
    match t_data v with
    | None => fail 4
    | Some d =>
      let* h4 := rd (t_hdr v) 4 in
      Ret (Again (mkT s (t_hdr v) None (TxCmd d) (Z.to_nat h4) (t_r v) (t_rpos v) (t_rlen v) (t_sw v)))
    end
  else if b =? Z.lxor ins 0xFF then                                  (* 226-257 *)
    match t_data v with
    | None => fail 5
    | Some d =>
      let d' :=
        if ((cs =? CASE_3S) && Nat.leb clen (d + 1))%bool then None
        else if ((cs =? CASE_4S) && Nat.leb (clen - 1) (d + 1))%bool then None
        else Some (d + 1)%nat in
      Ret (Again (mkT s (t_hdr v) d' (TxCmd d) 1 (t_r v) (t_rpos v) (t_rlen v) (t_sw v)))
    end
  else fail 6.                                                       (* 259-262 *)

(** Lines 323-374: copying response data.  [Some v'] to go on, [None] with a
    return code to leave. *)
Definition trx_copy (v : tvars S) (ins : Z) (rx : list Z) : out (tvars S + Z) :=
  match md with
  | ModeTpdu =>
    if 3 <? Zlen rx then
      if negb case_2_4 then Ret (inr 9)
      else
        let* b0 := rd rx 0 in
        if negb (b0 =? ins) then Ret (inr 10)
        else if t_rlen v <? Zlen rx - 1 then Ret (inr (-4))
        else
          let* d := sub rx 1 (length rx - 3) in
          let* r' := put (t_r v) (t_rpos v) d in
          Ret (inl (mkT (t_card v) (t_hdr v) (t_data v) (t_tx v) (t_txlen v)
                      r' (t_rpos v + length d) (t_rlen v - Zlen d) (t_sw v)))
    else Ret (inl v)
  | ModeApdu =>
    if 2 <? Zlen rx then
      if negb case_2_4 then Ret (inr 11)
      else if t_rlen v <? Zlen rx then Ret (inr (-5))
      else
        let* d := sub rx 0 (length rx - 2) in
        let* r' := put (t_r v) (t_rpos v) d in
        Ret (inl (mkT (t_card v) (t_hdr v) (t_data v) (t_tx v) (t_txlen v)
                    r' (t_rpos v + length d) (t_rlen v - Zlen d) (t_sw v)))
    else Ret (inl v)
  end.

(** One iteration of the loop, lines 119-423.  [rx_buf] has EMV_RAPDU_MAX = 258
    octets; a reader that writes more overruns it. *)
Definition trx_step (v : tvars S) : out (titer S) :=
  let* tx := tx_mem mem (t_hdr v) (t_tx v) 0 (t_txlen v) in
  let '(s, (r, rx)) := card (t_card v) tx in                         (* 131 *)
  if Nat.ltb 258 (length rx) then UB
  else
  let leave code := Ret (Done (mkR code (t_r v) (t_rlen v) (t_sw v) s)) in
  if negb (r =? 0) then leave r                                      (* 132-134 *)
  else if Nat.eqb (length rx) 0 then leave 1                         (* 135-139 *)
  else
    let* insl := tx_mem mem (t_hdr v) (t_tx v) 1 1 in                (* 144 *)
    let ins := hd 0 insl in
    let* sw1 := (if Nat.ltb 1 (length rx) then rd rx (length rx - 2) else rd rx 0) in
    let* sw2 := (if Nat.ltb 1 (length rx) then rd rx (length rx - 1) else Ret 0xFF) in
    if cs =? CASE_1 then                                             (* 156-178 *)
      if negb (Nat.eqb (length rx) 2) then Ret (Done (mkR 2 (t_r v) 0 (t_sw v) s))
      else
        let* r' := put (t_r v) 0 rx in
        Ret (Done (mkR 0 r' 2 (sw1 * 256 + sw2) s))
    else if Nat.eqb (length rx) 1 then trx_procedure v s ins sw1
    else
      (* 273-321; the result is tx_get_response, tx_update_le and *sw1sw2 *)
      let status :=
        if sw1 =? 0x61 then
          if negb case_2_4 then inr 7 else inl (true, false, t_sw v)
        else if sw1 =? 0x6C then
          if negb case_2_4 then inr 8 else inl (false, true, t_sw v)
        else if t_sw v =? 0 then
          inl (((cs =? CASE_4S) && Nat.eqb (length rx) 2 && is_warning sw1 sw2)%bool, false,
               sw1 * 256 + sw2)
        else inl (false, false, t_sw v) in
      match status with
      | inr code => leave code
      | inl (get_response, update_le, sw) =>
        let* c := trx_copy v ins rx in
        match c with
        | inr code => Ret (Done (mkR code (t_r v) (t_rlen v) sw s))
        | inl v' =>
          if get_response then                                       (* 376-403 *)
            let le := if ((sw1 =? 0x61) || ((sw1 =? 0x62) && (2 <=? sw2) && (sw2 <=? 0x80)))%bool
                      then sw2 else 0 in
            Ret (Again (mkT s [0; 0xC0; 0; 0; le] (t_data v') TxHdr 5
                          (t_r v') (t_rpos v') (t_rlen v') sw))
          else if update_le then                                     (* 405-415 *)
            let* h := tx_mem mem (t_hdr v) (t_tx v) 0 4 in
            Ret (Again (mkT s (h ++ [sw2]) (t_data v') TxHdr 5
                          (t_r v') (t_rpos v') (t_rlen v') sw))
          else                                                       (* 417-424 *)
            let* r1 := put (t_r v') (t_rpos v') [Z.shiftr sw 8; Z.land sw 0xFF] in
            Ret (Done (mkR 0 r1 (Z.of_nat (t_rpos v' + 2)) sw s))
        end
      end.

Fixpoint trx_loop (fuel : nat) (v : tvars S) : out (tres S) :=
  match fuel with
  | O => NoFuel
  | Datatypes.S fuel' =>
    let* i := trx_step v in
    match i with Done r => Ret r | Again v' => trx_loop fuel' v' end
  end.
End Trx.

(** Lines 41-118; [tail] is what can be read behind the command ([] if nothing
    may be), [sw0] is [*sw1sw2] before the call.  The header's initial contents
    are not read before being written. *)
Definition ttl_trx {S : Type} (fuel : nat) (card : cardfn S) (md : mode) (s : S)
    (cmd tail : list Z) (r : list Z) (sw0 : Z) : out (tres S) :=
  if (Nat.eqb (length cmd) 0 || Nat.eqb (length r) 0)%bool then Ret (mkR (-1) r (Zlen r) sw0 s)
  else
    let mem := cmd ++ tail in
    let* cs := apdu_case cmd in
    if negb ((cs =? CASE_1) || (cs =? CASE_2S) || (cs =? CASE_3S) || (cs =? CASE_4S))%bool then
      Ret (mkR (-2) r (Zlen r) sw0 s)
    else
      match md with
      | ModeApdu =>
        trx_loop card md mem (length cmd) cs fuel
          (mkT s [0;0;0;0;0] None (TxCmd 0) (length cmd) r 0 (Zlen r) 0)
      | ModeTpdu =>
        let* h := (if cs =? CASE_1 then let* h := sub cmd 0 4 in Ret (h ++ [0]) else sub cmd 0 5) in
        let d := if ((cs =? CASE_3S) || (cs =? CASE_4S))%bool then Some 5%nat else None in
        trx_loop card md mem (length cmd) cs fuel
          (mkT s h d TxHdr 5 r 0 (Zlen r) 0)
      end.

(** ** Commands.  The result is the return value, the output buffer, its length,
    [*sw1sw2] and the card's state. *)
Definition RAPDU_MAX := 258%nat.
Definition RAPDU_DATA_MAX := 256.

(** Common tail of the commands, e.g. lines 471-484: [e4], [e5] are the two
    error codes. *)
Definition ttl_finish {S : Type} (e4 e5 : Z) (t : tres S) (outb : list Z) : out (tres S) :=
  if negb (o_ret t =? 0) then Ret (mkR (o_ret t) outb (Zlen outb) (o_sw t) (o_card t))
  else if o_len t <? 2 then Ret (mkR e4 outb (Zlen outb) (o_sw t) (o_card t))
  else if Zlen outb <? o_len t - 2 then Ret (mkR e5 outb (Zlen outb) (o_sw t) (o_card t))
  else
    let* d := sub (o_buf t) 0 (Z.to_nat (o_len t - 2)) in
    let* o := put outb 0 d in
    Ret (mkR 0 o (o_len t - 2) (o_sw t) (o_card t)).

(** struct iso7816_apdu_case_4s_t (src/iso7816_apdu.h 175-182) is 261 octets, all
    of them readable; the command is its first 6 + Lc octets, then come the
    uninitialised rest [junk]. *)
Section Cmds.
Context {S : Type} (fuel : nat) (card : cardfn S) (md : mode) (junk : list Z).

(** Lines 426-485 [emv_ttl_select_by_df_name] (P2 = 00) and 487-546
    [emv_ttl_select_by_df_name_next] (P2 = 02) *)
Definition ttl_select_gen (p2 : Z) (s : S) (name outb : list Z) (sw0 : Z) : out (tres S) :=
  if Nat.eqb (length outb) 0 then Ret (mkR (-1) outb (Zlen outb) sw0 s)
  else if Zlen outb <? RAPDU_DATA_MAX then Ret (mkR (-2) outb (Zlen outb) sw0 s)
  else if ((Zlen name <? 5) || (16 <? Zlen name))%bool then Ret (mkR (-3) outb (Zlen outb) sw0 s)
  else
    let cmd := [0; 0xA4; 4; p2; u8 (Zlen name)] ++ name ++ [0] in
    let* t := ttl_trx fuel card md s cmd junk (repeat 0 RAPDU_MAX) sw0 in
    ttl_finish (-4) (-5) t outb.
Definition ttl_select := ttl_select_gen 0.
Definition ttl_select_next := ttl_select_gen 2.

(** Lines 548-606 [emv_ttl_read_record]; [sfi], [rec] are uint8_t. *)
Definition ttl_read_record (s : S) (sfi rec : Z) (outb : list Z) (sw0 : Z) : out (tres S) :=
  if Nat.eqb (length outb) 0 then Ret (mkR (-1) outb (Zlen outb) sw0 s)
  else if Zlen outb <? RAPDU_DATA_MAX then Ret (mkR (-2) outb (Zlen outb) sw0 s)
  else if ((sfi <? 1) || (0x1E <? sfi))%bool then Ret (mkR (-3) outb (Zlen outb) sw0 s)
  else
    let cmd := [0; 0xB2; rec; u8 (Z.lor (Z.shiftl sfi 3) 4); 0] in
    let* t := ttl_trx fuel card md s cmd [] (repeat 0 RAPDU_MAX) sw0 in
    ttl_finish (-4) (-5) t outb.

(** Lines 608-694 [emv_ttl_get_processing_options]; [None] is a NULL [data]. *)
Definition ttl_gpo (s : S) (data : option (list Z)) (outb : list Z) (sw0 : Z) : out (tres S) :=
  if Nat.eqb (length outb) 0 then Ret (mkR (-1) outb (Zlen outb) sw0 s)
  else if Zlen outb <? RAPDU_DATA_MAX then Ret (mkR (-2) outb (Zlen outb) sw0 s)
  else
    let* d :=
      match data with
      | Some d =>
        if ((Zlen d <? 2) || (255 <? Zlen d))%bool then Ret (inr (-3))
        else
          let* b := rd d 0 in
          if negb (b =? 0x83) then Ret (inr (-4)) else Ret (inl d)
      | None => Ret (inl [0x83; 0])
      end in
    match d with
    | inr code => Ret (mkR code outb (Zlen outb) sw0 s)
    | inl d =>
      let cmd := [0x80; 0xA8; 0; 0; u8 (Zlen d)] ++ d ++ [0] in
      let* t := ttl_trx fuel card md s cmd junk (repeat 0 RAPDU_MAX) sw0 in
      ttl_finish (-5) (-6) t outb
    end.
End Cmds.
