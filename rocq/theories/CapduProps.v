(** Properties of the descriptions of commands and status words (C55, C77 to C80). *)
From Verif Require Import Base BaseLemmas TlvSpec TtlModel TtlSpec TtlProofs StrModel StrSpec CapduModel CapduSpec CapduProofs.
Open Scope Z_scope.

(** C55: false.  The length that is compared with 4 is that of the output. *)
Theorem C55_capdu_in_bounds_refuted :
  exists c1 c2 str junk, bytes c1 /\ bytes c2 /\ length c1 = 1%nat /\ length c2 = 3%nat /\ length junk = 511%nat /\
    emv_capdu_get_string c1 str junk = UB /\ emv_capdu_get_string c2 str junk = UB.
Proof.
  exists [0x00], [0x80; 0xCA; 0x9F], (repeat 0 64), (repeat 0 511).
  split; [repeat constructor; unfold is_byte; lia|]. split; [repeat constructor; unfold is_byte; lia|].
  repeat (split; [vm_compute; reflexivity|]). vm_compute; reflexivity.
Qed.
Print Assumptions C55_capdu_in_bounds_refuted.
(** What holds: out-of-bounds reads occur exactly for the one-octet commands (other than FF)
    and the GET DATA commands of two or three octets, if the output has four chars;
    for all other commands the function returns and the output is a string. *)
Theorem C55_capdu_partial : forall c str junk, bytes c -> c <> [] -> str <> [] -> length junk = 511%nat ->
  let stray := (4 <= length str)%nat /\
    ((length c = 1%nat /\ hd 0 c <> 0xFF) \/ (2 <= length c < 4)%nat /\ 0x80 <= hd 0 c < 0xFF /\ nth 1 c 0 = 0xCA) in
  (stray -> emv_capdu_get_string c str junk = UB) /\
  (~ stray -> exists r new s, emv_capdu_get_string c str junk = Ret (r, new) /\ length new = length str /\ cstring new = Some s).
Proof.
  intros c str junk B NEc NE LJ. cbn zeta. destruct (emv_exact c str junk B NEc NE LJ) as [(S & E)|(S & r & new & E & L & s & C)]; split; intros H.
  - exact E.
  - contradiction.
  - contradiction.
  - exists r, new, s. auto.
Qed.
Print Assumptions C55_capdu_partial.
Theorem C55_iso_capdu_safe : forall c str junk, bytes c -> (2 <= length c)%nat -> str <> [] -> length junk = 511%nat ->
  exists ok new s, iso_capdu_get_string c str junk = Ret (ok, new) /\ length new = length str /\ cstring new = Some s.
Proof. intros c str junk B L NE LJ. destruct (iso_fine c str junk B L NE LJ) as (ok & new & E & Ln & s & C). exists ok, new, s. auto. Qed.
Print Assumptions C55_iso_capdu_safe.
Example C55_ex : (let* (r, s) := emv_capdu_get_string [0x80; 0xCA; 0x9F; 0x17; 0x00] (repeat 7 20) (repeat 7 511) in Ret (r, s)) = Ret (0, lit "GET DATA field 9F17" ++ [0]) /\
  emv_capdu_get_string [0x80; 0xA8] (repeat 7 8) (repeat 7 511) = Ret (0, lit "GET PRO" ++ [0]) /\
  emv_capdu_get_string [0x00; 0xA5; 0; 0] (repeat 7 4) (repeat 7 511) = Ret (3, [0; 7; 7; 7]).
Proof. repeat split; vm_compute; reflexivity. Qed.

(** C77: SELECT with a file identifier: false for a 255-octet identifier that is shown in
    hex; the last digit is lost. *)
Theorem C77_select_identifier_refuted :
  exists data str junk new, bytes data /\ Zlen data = 255 /\ length junk = 511%nat /\
    iso_capdu_get_string ([0x00; 0xA4; 0x04; 0x00] ++ [Zlen data] ++ data ++ [0x00]) str junk = Ret (true, new) /\
    ~ shown str new (lit "SELECT first " ++ file_text data).
Proof.
  exists (repeat 1 255), (repeat 7 600), (repeat 7 511).
  eexists. split; [apply Forall_forall; intros x I; apply repeat_spec in I; subst; unfold is_byte; lia|].
  split; [reflexivity|]. split; [reflexivity|]. split; [vm_compute; reflexivity|].
  intros (_ & C). revert C. vm_compute. discriminate.
Qed.
Print Assumptions C77_select_identifier_refuted.
(** What holds: all identifiers of up to 254 octets, and all printable ones. *)
Theorem C77_select_identifier_partial : forall cla p1 p2 data le str junk,
  0 <= cla < 128 -> is_byte p1 -> is_byte p2 -> is_byte le -> bytes data ->
  (1 <= length data <= 254)%nat \/ (length data = 255%nat /\ printable data = true) ->
  (4 <= length str)%nat -> length junk = 511%nat ->
  exists new, iso_capdu_get_string ([cla; 0xA4; p1; p2] ++ [Zlen data] ++ data ++ [le]) str junk = Ret (true, new) /\
    shown str new
      (if (p1 =? 0) && (p2 =? 0) && is_mf data then lit "SELECT Master File"
       else lit "SELECT " ++ nth (Z.to_nat (p2 mod 4)) [lit "first"; lit "last"; lit "next"; lit "previous"] [] ++ lit " " ++ file_text data).
Proof.
  intros cla p1 p2 data le str junk Bc B1 B2 Bl B Ld Ls LJ.
  destruct (select_4s cla p1 p2 data le str junk ltac:(unfold is_byte; lia) ltac:(lia) B1 B2 Bl B ltac:(unfold Zlen; lia) Ls LJ) as (new & E & S).
  exists new. split; [exact E|]. rewrite id_text_full in S by (destruct Ld as [Ld|(_ & Ld)]; [left; lia|right; exact Ld]).
  replace (nth (Z.to_nat (p2 mod 4)) [lit "first"; lit "last"; lit "next"; lit "previous"] []) with (occurrence p2); [exact S|].
  unfold occurrence. destruct (p2_bits p2 B2) as (_ & -> & _). assert (M := Z.mod_pos_bound p2 4 ltac:(lia)).
  assert (HW : p2 mod 4 = 0 \/ p2 mod 4 = 1 \/ p2 mod 4 = 2 \/ p2 mod 4 = 3) by lia. destruct HW as [->|[->|[->| ->]]]; reflexivity.
Qed.
Print Assumptions C77_select_identifier_partial.
Example C77_ex : iso_capdu_get_string ([0x00; 0xA4; 0x04; 0x00; 14] ++ lit "1PAY.SYS.DDF01" ++ [0]) (repeat 7 30) (repeat 7 511) = Ret (true, lit "SELECT first 1PAY.SYS.DDF01" ++ [0; 7; 7]) /\
  iso_capdu_get_string [0x00; 0xA4; 0x04; 0x02; 5; 0xA0; 0; 0; 0; 3; 0] (repeat 7 23) (repeat 7 511) = Ret (true, lit "SELECT next A000000003" ++ [0]) /\
  iso_capdu_get_string [0x00; 0xA4; 0; 0; 2; 0x3F; 0; 0] (repeat 7 19) (repeat 7 511) = Ret (true, lit "SELECT Master File" ++ [0]).
Proof. repeat split; vm_compute; reflexivity. Qed.

(** C78: status words.  The number of available octets is false for 00, which means 256. *)
Theorem C78_status_numbers_refuted :
  exists sw1 str new, sw1 = 0x61 /\ sw1sw2_get_string sw1 0x00 str = Ret (true, new) /\
    ~ exists t, dec_text 256 t /\ shown str new (lit "Normal: " ++ t ++ lit " data bytes remaining").
Proof.
  exists 0x61, (repeat 7 64). eexists. split; [reflexivity|]. split; [vm_compute; reflexivity|].
  intros (t & (ds & (D & N & NE & H) & ->) & _ & C). destruct ds as [|d ds]; [contradiction|]. clear NE.
  assert (R := Forall_inv D). cbn beta in R.
  apply (f_equal (fun o => match o with Some l => nth 8 l 0 | None => 0 end)) in C.
  assert (HW : d = 0 \/ d = 1 \/ d = 2 \/ d = 3 \/ d = 4 \/ d = 5 \/ d = 6 \/ d = 7 \/ d = 8 \/ d = 9) by lia.
  destruct HW as [->|[->|[->|[->|[->|[->|[->|[->|[->| ->]]]]]]]]]; try (vm_compute in C; discriminate).
  specialize (H eq_refl). injection H as ->. vm_compute in N. discriminate.
Qed.
Print Assumptions C78_status_numbers_refuted.
(** What holds: every status word gives a text (cut where the buffer ends) that starts with
    the class of ISO 7816-4; the numbers are right except for 00. *)
Theorem C78_status_text_partial : forall sw1 sw2, is_byte sw1 -> is_byte sw2 ->
  exists s, (forall str, str <> [] -> exists new, sw1sw2_get_string sw1 sw2 str = Ret (true, new) /\ shown str new s) /\
  (match iso_sw_class sw1 sw2 with
   | SwNormal => begins_with (lit "Normal") s
   | SwWarning => begins_with (lit "Warning: ") s
   | SwExecution => begins_with (lit "Execution error: ") s
   | SwChecking => begins_with (lit "Checking error: ") s
   | SwProprietary => s = lit "Proprietary"
   | SwInvalid => s = lit "Invalid"
   end) /\
  (sw1 = 0x61 -> sw2 <> 0 -> exists t, dec_text sw2 t /\ s = lit "Normal: " ++ t ++ lit " data bytes remaining") /\
  (sw1 = 0x6C -> sw2 <> 0 -> exists t, dec_text sw2 t /\ s = lit "Checking error: Wrong Le field (" ++ t ++ lit " data bytes available)") /\
  (sw1 = 0x63 -> sw2 / 16 = 12 -> exists t, dec_text (sw2 mod 16) t /\ s = lit "Warning: Counter is " ++ t).
Proof. exact sw_exact. Qed.
Print Assumptions C78_status_text_partial.
Example C78_ex : sw1sw2_get_string 0x6A 0x82 (repeat 7 50) = Ret (true, lit "Checking error: File or application not found" ++ 0 :: repeat 7 4) /\
  sw1sw2_get_string 0x6A 0x82 (repeat 7 12) = Ret (true, lit "Checking er" ++ [0]) /\
  sw1sw2_get_string 0x63 0xC3 (repeat 7 22) = Ret (true, lit "Warning: Counter is 3" ++ [0]) /\
  sw1sw2_get_string 0x6C 0x1A (repeat 7 60) = Ret (true, lit "Checking error: Wrong Le field (26 data bytes available)" ++ 0 :: repeat 7 3) /\
  sw1sw2_get_string 0x12 0x34 (repeat 7 8) = Ret (true, lit "Invalid" ++ [0]).
Proof. repeat split; vm_compute; reflexivity. Qed.

(** C79: READ RECORD as used by EMV, and in general. *)
Theorem C79_read_record : forall cla p1 sfi le str junk, 0 <= cla < 128 -> 1 <= p1 <= 254 -> 0 <= sfi <= 31 -> is_byte le -> (4 <= length str)%nat ->
  exists new tn ts, dec_text p1 tn /\ dec_text sfi ts /\
    iso_capdu_get_string [cla; 0xB2; p1; sfi * 8 + 4; le] str junk = Ret (true, new) /\
    shown str new (lit "READ RECORD from short EF " ++ ts ++ lit ", record number " ++ tn).
Proof. exact read_record_emv. Qed.
Print Assumptions C79_read_record.
Theorem C79_read_record_all : forall cla p1 sfi how rest str junk, 0 <= cla < 128 -> is_byte p1 -> p1 <> 0xFF -> 0 <= sfi <= 31 -> 0 <= how <= 7 -> bytes rest ->
  command A2S ([cla; 0xB2; p1; sfi * 8 + how] ++ rest) \/ command A2E ([cla; 0xB2; p1; sfi * 8 + how] ++ rest) -> (4 <= length str)%nat ->
  exists new tn ts ok, dec_text p1 tn /\ dec_text sfi ts /\
    iso_capdu_get_string ([cla; 0xB2; p1; sfi * 8 + how] ++ rest) str junk = Ret (ok, new) /\ (ok = true <-> how <> 7) /\
    let id := if p1 =? 0 then lit "current record" else lit "record identifier " ++ tn in
    let num := if p1 =? 0 then lit "current record" else lit "record number " ++ tn in
    (ok = true -> shown str new (lit "READ RECORD from short EF " ++ ts ++ lit ", " ++
      nth (Z.to_nat how) [lit "first occurence of " ++ id; lit "last occurence of " ++ id; lit "next occurence of " ++ id; lit "previous occurence of " ++ id;
                          num; lit "all records from " ++ num ++ lit " up to last"; lit "all records from the last up to " ++ num] [])).
Proof. exact read_record_all. Qed.
Print Assumptions C79_read_record_all.
Example C79_ex : iso_capdu_get_string [0x00; 0xB2; 0x0A; 0x0C; 0x00] (repeat 7 48) [] = Ret (true, lit "READ RECORD from short EF 1, record number 10" ++ [0; 7; 7]) /\
  iso_capdu_get_string [0x00; 0xB2; 0x00; 0xF5; 0x00] (repeat 7 45) [] = Ret (true, lit "READ RECORD from short EF 30, all records fr" ++ [0]).
Proof. split; vm_compute; reflexivity. Qed.

(** C80: life cycle status: false for the reserved values, shown as proprietary. *)
Theorem C80_life_cycle_refuted : exists lcs, iso_life lcs = LifeReserved /\ lcs_get_string lcs = lit "Proprietary".
Proof. exists 2. split; vm_compute; reflexivity. Qed.
Print Assumptions C80_life_cycle_refuted.
Theorem C80_life_cycle_partial : forall lcs, is_byte lcs ->
  match iso_life lcs with
  | LifeNone => lcs_get_string lcs = lit "No information given"
  | LifeCreation => lcs_get_string lcs = lit "Creation state"
  | LifeInit => lcs_get_string lcs = lit "Initialisation state"
  | LifeActive => lcs_get_string lcs = lit "Operational state (activated)"
  | LifeInactive => lcs_get_string lcs = lit "Operational state (deactivated)"
  | LifeTerminated => lcs_get_string lcs = lit "Termination state"
  | LifeProprietary | LifeReserved => lcs_get_string lcs = lit "Proprietary"
  end.
Proof. exact life_exact. Qed.
Print Assumptions C80_life_cycle_partial.
Example C80_ex : lcs_get_string 0x07 = lit "Operational state (activated)" /\ lcs_get_string 0x0E = lit "Termination state".
Proof. split; vm_compute; reflexivity. Qed.
