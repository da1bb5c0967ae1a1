(** Model of the descriptions of an answer to reset (src/iso7816.c:736-1186).  The
    result [true] is str and [false] is NULL; atr_info and str are not NULL.  [i] is a
    size_t.  Simplification: float fmax is in units of 0.1 MHz; all its values and their
    products with 1000000 are exact in float (iso7816.c:343-359). *)
From Coq Require Import String.
From Verif Require Import Base StrModel AtrModel.
From Verif Require FlagsModel.
Open Scope Z_scope.
Open Scope list_scope.
Notation p_dec := FlagsModel.p_dec.

(** iso7816.c:736-747 [iso7816_atr_TS_get_string] *)
Definition TS_get_string (x : info) : list Z :=
  if i_TS x =? 0x3B then lit "Direct convention" else if i_TS x =? 0x3F then lit "Inverse convention" else lit "Unknown".

(** snprintf(str, str_len, ...); return str; *)
Definition tell (str s : list Z) : out (bool * list Z) := let* str := snprintf str 0 (List.length str) s in Ret (true, str).
(** A sequence of [r = snprintf(str_ptr, str_len, ...); if (r >= str_len) return; str_ptr
    += r; str_len -= r;]: whether all of it fitted, str_ptr - str (plus r), the buffer. *)
Fixpoint write_all (str : list Z) (off : nat) (pieces : list (list Z)) : out (bool * nat * list Z) :=
  match pieces with
  | [] => Ret (true, off, str)
  | p :: rest =>
    let n := (List.length str - off)%nat in
    let* str := snprintf str off n p in
    if (n <=? List.length p)%nat then Ret (false, (off + List.length p)%nat, str)
    else write_all str (off + List.length p) rest
  end.
(** The pieces that are present; [add_comma] is "" before the first and [sep] after. *)
Fixpoint with_commas (sep add_comma : list Z) (l : list (bool * list Z)) : list (list Z) :=
  match l with
  | [] => []
  | (true, s) :: l => (add_comma ++ s) :: with_commas sep sep l
  | (false, _) :: l => with_commas sep add_comma l
  end.
Definition present (f : ptrs -> option nat) (i : nat) (x : info) : bool := match ptr f i x with Some _ => true | None => false end.
(** iso7816.c:749-812 [iso7816_atr_Yi_write_string]; the result as for [write_all].  The
    caller compares it to the length again, so the first component is not needed. *)
Definition Yi_write_string (x : info) (i : nat) (str : list Z) : out (nat * list Z) :=
  if ((i <? 1) || (4 <? i))%nat then Ret (0%nat, str)
  else
    let n := p_dec (Z.of_nat i) in
    let* (_, r, str) := write_all str 0
      ((lit "Y" ++ n ++ lit "=") ::
       with_commas (lit ",") [] [(present t_A i x, lit "TA" ++ n); (present t_B i x, lit "TB" ++ n); (present t_C i x, lit "TC" ++ n); (present t_D i x, lit "TD" ++ n)]) in
    Ret (r, str).
(** iso7816.c:814-835 [iso7816_atr_T0_get_string] *)
Definition T0_get_string (x : info) (str : list Z) : out (bool * list Z) :=
  let* (r, str) := Yi_write_string x 1 str in
  if (List.length str <=? r)%nat then Ret (true, str)
  else let* str := snprintf str r (List.length str - r) (lit "; K=" ++ p_dec (i_K x)) in Ret (true, str).

(** The octet that TD[i] points at, for a pointer that is not NULL. *)
Definition TD_protocol (i : nat) (x : info) : out (option Z) :=
  let* d := deref t_D i x in Ret (match d with Some b => Some (Z.land b 0x0F) | None => None end).
(** %.1f *)
Definition p_1f (tenths : Z) : list Z := p_dec (tenths / 10) ++ lit "." ++ p_dec (tenths mod 10).
(** Unsigned division. *)
Definition udiv (a b : Z) : out Z := if b =? 0 then UB else Ret (a / b).

(** iso7816.c:837-956 [iso7816_atr_TAi_get_string] *)
Definition TAi_get_string (x : info) (i : nat) (str : list Z) : out (bool * list Z) :=
  let p := i_params x in
  if ((i <? 1) || (4 <? i))%nat then Ret (false, str)
  else if (i =? 1)%nat then
    let* cycles := udiv (p_Fi p) (p_Di p) in
    let* rate := udiv (p_fmax p * 100000) cycles in
    tell str (lit "Fi=" ++ p_dec (p_Fi p) ++ lit "; Di=" ++ p_dec (p_Di p) ++ lit "; " ++ p_dec cycles ++ lit " cycles/ETU @ max " ++ p_1f (p_fmax p) ++
              lit "MHz; max " ++ p_dec rate ++ lit " bit/s")
  else if (i =? 2)%nat then
    if present t_A 2 x then
      tell str (lit "Specific mode (" ++ (if p_may_change p then lit "mutable" else lit "immutable") ++ lit "); ETU" ++
                (if p_etu_implicit p then lit " is implicit" else lit "=Fi/Di") ++ lit "; protocol T=" ++ p_dec (p_specific_protocol p))
    else tell str (lit "Negotiable mode")
  else if present t_A i x then
    let* T := TD_protocol (i - 1) x in
    match T with
    | None => Ret (false, str)
    | Some T =>
      if T =? 15 then
        let stop := if p_clock_stop p =? 0 then lit "Not supported" else if p_clock_stop p =? 1 then lit "State L" else if p_clock_stop p =? 2 then lit "State H"
                    else if p_clock_stop p =? 3 then lit "No preference" else [] in
        let* (_, _, str) := write_all str 0
          ((lit "Clock stop: " ++ stop ++ lit "; Class: ") ::
           with_commas (lit ", ") [] [(negb (Z.land (p_classes p) 0x01 =? 0), lit "A (5V)"); (negb (Z.land (p_classes p) 0x02 =? 0), lit "B (3V)");
                                      (negb (Z.land (p_classes p) 0x04 =? 0), lit "C (1.8V)")]) in
        Ret (true, str)
      else if T =? 1 then tell str (lit "IFSI=" ++ p_dec (p_IFSI p))
      else tell str (lit "Unimplemented")
    end
  else tell str (lit "Unimplemented").

(** iso7816.c:958-1050 [iso7816_atr_TBi_get_string] *)
Definition TBi_get_string (x : info) (i : nat) (str : list Z) : out (bool * list Z) :=
  let p := i_params x in
  if ((i <? 1) || (4 <? i))%nat then Ret (false, str)
  else if (i =? 1)%nat then
    if present t_B 1 x && p_vpp_connected p
    then tell str (lit "Vpp is connected; Vpp=" ++ p_dec (p_vpp_course p) ++ lit "mV; Ipp=" ++ p_dec (p_ipp p) ++ lit "mA")
    else tell str (lit "Vpp is not connected")
  else if (i =? 2)%nat then
    if present t_B 1 x && present t_B 2 x && p_vpp_connected p
    then tell str (lit "Vpp=" ++ p_dec (p_vpp p) ++ lit "mV")
    else tell str (lit "Vpp is not connected")
  else if present t_B i x then
    let* T := TD_protocol (i - 1) x in
    match T with
    | None => Ret (false, str)
    | Some T =>
      if T =? 15 then
        if p_spu p =? 0 then tell str (lit "SPU not used") else if p_spu p =? 1 then tell str (lit "Standard usage of SPU")
        else if p_spu p =? 2 then tell str (lit "Proprietary usage of SPU") else Ret (true, str)
      else if T =? 1 then tell str (lit "CWT=" ++ p_dec (i_CWT x) ++ lit "; BWT=" ++ p_dec (i_BWT x))
      else tell str (lit "Unimplemented")
    end
  else tell str (lit "Unimplemented").

(** iso7816.c:1052-1114 [iso7816_atr_TCi_get_string] *)
Definition TCi_get_string (x : info) (i : nat) (str : list Z) : out (bool * list Z) :=
  let p := i_params x in
  if ((i <? 1) || (4 <? i))%nat then Ret (false, str)
  else if (i =? 1)%nat then tell str (lit "N=" ++ p_dec (p_N p) ++ lit "; GT=" ++ p_dec (i_GT x))
  else if (i =? 2)%nat then tell str (lit "WI=" ++ p_dec (p_WI p) ++ lit "; WT=" ++ p_dec (i_WT x))
  else if present t_C i x then
    let* T := TD_protocol (i - 1) x in
    match T with
    | None => Ret (false, str)
    | Some T =>
      if T =? 1 then
        if p_edc p =? 0 then tell str (lit "Longitudinal Redundancy Check (LRC)") else if p_edc p =? 1 then tell str (lit "Cyclic Redundancy Check (CRC)")
        else Ret (true, str)
      else tell str (lit "Unimplemented")
    end
  else tell str (lit "Unimplemented").

(** iso7816.c:1116-1156 [iso7816_atr_TDi_get_string] *)
Definition TDi_get_string (x : info) (i : nat) (str : list Z) : out (bool * list Z) :=
  if ((i <? 1) || (4 <? i))%nat then Ret (false, str)
  else if negb (present t_D i x) then Ret (false, str)
  else
    let* (r, str) := Yi_write_string x (i + 1) str in
    if (List.length str <=? r)%nat then Ret (true, str)
    else
      let* T := TD_protocol i x in
      match T with
      | None => UB
      | Some T =>
        let* str := snprintf str r (List.length str - r) (if T =? 15 then lit "; Global (T=" ++ p_dec T ++ lit ")" else lit "; Protocol T=" ++ p_dec T) in
        Ret (true, str)
      end.

(** iso7816.c:1158-1186 [iso7816_atr_T1_get_string]; [None] is NULL. *)
Definition T1_get_string (x : info) : option (list Z) :=
  if i_K x =? 0 then None
  else Some (if i_T1 x =? 0x00 then lit "COMPACT-TLV followed by mandatory status indicator"
             else if i_T1 x =? 0x10 then lit "DIR data reference"
             else if i_T1 x =? 0x80 then lit "COMPACT-TLV including optional status indicator"
             else if (0x80 <? i_T1 x) && (i_T1 x <=? 0x8F) then lit "RFU" else lit "Proprietary").
