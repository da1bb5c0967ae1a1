(** Model of iso7816_atr_parse (src/iso7816.c) and emv_atr_parse (src/emv.c).
    Simplifications: atr and atr_info are not NULL; when an error is returned the
    content left in atr_info is not modelled; the pointers TA[i]..TD[i] are indices
    of the array atr_info.atr; status_indicator_bytes is represented by the octets
    it points at; frequencies (float fmax) are in units of 0.1 MHz. *)
From Verif Require Import Base DolModel EmvModel.

(** A computation that returns early with an error code ([if (r) return r]). *)
Definition ebind {A B} (m : out (Z + A)) (k : A -> out (Z + B)) : out (Z + B) :=
  let* x := m in match x with inl e => Ret (inl e) | inr a => k a end.
Notation "'let!' x ':=' m 'in' k" := (ebind m (fun x => k))
  (at level 200, x pattern, m at level 100, k at level 200, right associativity).
Definition fails {A} (e : Z) : out (Z + A) := Ret (inl e).
Definition gives {A} (a : A) : out (Z + A) := Ret (inr a).

(** iso7816.h:186-237: the decoded parameters that come from interface bytes. *)
Record params := mkParams {
  p_Di : Z; p_Fi : Z; p_fmax : Z;
  p_vpp_connected : bool; p_vpp : Z; p_vpp_course : Z; p_ipp : Z;
  p_N : Z; p_protocol : Z;
  p_specific : bool; p_specific_protocol : Z; p_etu_implicit : bool; p_may_change : bool;
  p_classes : Z; p_clock_stop : Z; p_spu : Z;
  p_WI : Z; p_IFSI : Z; p_CWI : Z; p_BWI : Z; p_edc : Z }.
(** memset(atr_info, 0, ...), iso7816.c:64. *)
Definition params0 : params := mkParams 0 0 0 false 0 0 0 0 0 false 0 false false 0 0 0 0 0 0 0 0.

Definition set_TA1 di fi fmax p := let 'mkParams _ _ _ a b c d e f g h i j k l m n o q r s := p in
  mkParams di fi fmax a b c d e f g h i j k l m n o q r s.
Definition set_vpp conn vpp course ipp p := let 'mkParams x y z _ _ _ _ e f g h i j k l m n o q r s := p in
  mkParams x y z conn vpp course ipp e f g h i j k l m n o q r s.
Definition set_N v p := let 'mkParams x y z a b c d _ f g h i j k l m n o q r s := p in
  mkParams x y z a b c d v f g h i j k l m n o q r s.
Definition set_protocol v p := let 'mkParams x y z a b c d e _ g h i j k l m n o q r s := p in
  mkParams x y z a b c d e v g h i j k l m n o q r s.
Definition set_TA2 v1 v2 v3 v4 p := let 'mkParams x y z a b c d e f _ _ _ _ k l m n o q r s := p in
  mkParams x y z a b c d e f v1 v2 v3 v4 k l m n o q r s.
Definition set_class v1 v2 p := let 'mkParams x y z a b c d e f g h i j _ _ m n o q r s := p in
  mkParams x y z a b c d e f g h i j v1 v2 m n o q r s.
Definition set_spu v p := let 'mkParams x y z a b c d e f g h i j k l _ n o q r s := p in
  mkParams x y z a b c d e f g h i j k l v n o q r s.
Definition set_WI v p := let 'mkParams x y z a b c d e f g h i j k l m _ o q r s := p in
  mkParams x y z a b c d e f g h i j k l m v o q r s.
Definition set_IFSI v p := let 'mkParams x y z a b c d e f g h i j k l m n _ q r s := p in
  mkParams x y z a b c d e f g h i j k l m n v q r s.
Definition set_CB c' b' p := let 'mkParams x y z a b c d e f g h i j k l m n o _ _ s := p in
  mkParams x y z a b c d e f g h i j k l m n o c' b' s.
Definition set_edc v p := let 'mkParams x y z a b c d e f g h i j k l m n o q r _ := p in
  mkParams x y z a b c d e f g h i j k l m n o q r v.

(** iso7816.c:325-340, the switch on DI. *)
Definition di_of (DI : Z) : option Z :=
  match DI with
  | 0x01 => Some 1 | 0x02 => Some 2 | 0x03 => Some 4 | 0x04 => Some 8 | 0x05 => Some 16
  | 0x06 => Some 32 | 0x07 => Some 64 | 0x08 => Some 12 | 0x09 => Some 20 | _ => None end.
(** iso7816.c:343-359, the switch on FI. *)
Definition fi_of (FI : Z) : option (Z * Z) :=
  match FI with
  | 0x00 => Some (372, 40) | 0x10 => Some (372, 50) | 0x20 => Some (558, 60) | 0x30 => Some (744, 80)
  | 0x40 => Some (1116, 120) | 0x50 => Some (1488, 160) | 0x60 => Some (1860, 200)
  | 0x90 => Some (512, 50) | 0xA0 => Some (768, 75) | 0xB0 => Some (1024, 100)
  | 0xC0 => Some (1536, 150) | 0xD0 => Some (2048, 200) | _ => None end.
(** iso7816.c:319-362 [iso7816_atr_parse_TA1] *)
Definition parse_TA1 (b : Z) (p : params) : out (Z + params) :=
  match di_of (Z.land b 0x0F) with
  | None => fails 10
  | Some di => match fi_of (Z.land b 0xF0) with
               | None => fails 11
               | Some (fi, fmax) => gives (set_TA1 di fi fmax p)
               end
  end.
(** iso7816.c:364-400 [iso7816_atr_parse_TB1] *)
Definition parse_TB1 (b : Z) (p : params) : out (Z + params) :=
  let PI1 := Z.land b 0x1F in
  let II := Z.land b 0x60 in
  if b =? 0 then gives (set_vpp false (p_vpp p) (p_vpp_course p) (p_ipp p) p)
  else if (PI1 <? 5) || (25 <? PI1) then fails 12
  else let v := PI1 * 1000 in
  match II with
  | 0x00 => gives (set_vpp true v v 25 p)
  | 0x20 => gives (set_vpp true v v 50 p)
  | 0x40 => gives (set_vpp true v v 100 p)
  | _ => fails 13
  end.
(** iso7816.c:402-409 [iso7816_atr_parse_TC1] *)
Definition parse_TC1 (b : Z) (p : params) : out (Z + params) := gives (set_N b p).
(** iso7816.c:411-440 [iso7816_atr_parse_TDi] *)
Definition parse_TDi (i : Z) (b : Z) (p : params) : out (Z + params) :=
  let T := Z.land b 0x0F in
  if i =? 1 then
    if negb (T =? 0) && negb (T =? 1) then fails 14 else gives (set_protocol T p)
  else if negb (T =? 0) && negb (T =? 1) && negb (T =? 15) then fails 15 else gives p.
(** iso7816.c:442-457 [iso7816_atr_parse_TA2] *)
Definition parse_TA2 (b : Z) (p : params) : out (Z + params) :=
  gives (set_TA2 true (Z.land b 0x0F) (negb (Z.land b 0x10 =? 0)) (Z.land b 0x80 =? 0) p).
(** iso7816.c:459-477 [iso7816_atr_parse_TB2] *)
Definition parse_TB2 (b : Z) (p : params) : out (Z + params) :=
  if negb (p_vpp_connected p) then fails 16
  else if (b <? 50) || (250 <? b) then fails 17
  else gives (set_vpp (p_vpp_connected p) (b * 100) (p_vpp_course p) (p_ipp p) p).
(** iso7816.c:479-493 [iso7816_atr_parse_TC2] *)
Definition parse_TC2 (b : Z) (p : params) : out (Z + params) :=
  if b =? 0 then fails 18 else gives (set_WI b p).
(** iso7816.c:495-534 [iso7816_atr_parse_TAi] *)
Definition parse_TAi (protocol : Z) (b : Z) (p : params) : out (Z + params) :=
  let! p := (if protocol =? 15 then
      let Y := Z.land b 0x3F in
      let X := Z.shiftr (Z.land b 0xC0) 6 in
      if (Y <? 1) || (7 <? Y) then fails 19
      else if 3 <? X then fails 20
      else gives (set_class Y X p)
    else gives p) in
  if protocol =? 1 then
    if (b =? 0) || (b =? 0xFF) then fails 21 else gives (set_IFSI b p)
  else gives p.
(** iso7816.c:536-580 [iso7816_atr_parse_TBi] *)
Definition parse_TBi (protocol : Z) (b : Z) (p : params) : out (Z + params) :=
  let p := if protocol =? 15 then
      set_spu (if b =? 0 then 0 else if Z.land b 0x80 =? 0 then 1 else 2) p
    else p in
  if protocol =? 1 then
    let CWI := Z.land b 0x0F in
    let BWI := Z.shiftr (Z.land b 0xF0) 4 in
    if 15 <? CWI then fails 22
    else if 9 <? BWI then fails 23
    else gives (set_CB CWI BWI p)
  else gives p.
(** iso7816.c:582-595 [iso7816_atr_parse_TCi] *)
Definition parse_TCi (protocol : Z) (b : Z) (p : params) : out (Z + params) :=
  if protocol =? 1 then gives (set_edc (if Z.land b 0x01 =? 0 then 0 else 1) p) else gives p.

(** iso7816.c:274-317 [iso7816_atr_populate_default_parameters]; the return codes
    are ignored there. *)
Definition keep (m : out (Z + params)) (p : params) : params := match m with Ret (inr q) => q | _ => p end.
Definition default_params : params :=
  let p := params0 in
  let p := keep (parse_TA1 0x11 p) p in
  let p := keep (parse_TB1 0x25 p) p in
  let p := keep (parse_TC1 0x00 p) p in
  let p := keep (parse_TDi 1 0x00 p) p in
  let p := keep (parse_TC2 0x0A p) p in
  let p := keep (parse_TAi 1 0x20 p) p in
  let p := keep (parse_TAi 15 1 p) p in
  let p := keep (parse_TBi 1 0x4D p) p in
  keep (parse_TCi 1 0x00 p) p.

(** The pointers TA[i], TB[i], TC[i], TD[i] for one i. *)
Record ptrs := mkPtrs { t_A : option nat; t_B : option nat; t_C : option nat; t_D : option nat }.

(** One of the blocks [if (interface_byte_bits & ...) { ... }] (iso7816.c:95-143):
    the pointer, the next index, the parameters. *)
Definition iface_byte (present : bool) (buf : list Z) (idx : nat) (parse : Z -> params -> out (Z + params)) (p : params)
  : out (Z + (option nat * nat * params)) :=
  if present then
    let* b := rd buf idx in
    let! p := parse b p in
    gives (Some idx, S idx, p)
  else gives (None, idx, p).

(** The switches on i. *)
Definition pick {A} (i : Z) (one two other : A) : A := match i with 1 => one | 2 => two | _ => other end.

(** iso7816.c:91-172, the loop over i = 1..4; [n] iterations remain.  Result: index,
    tck_mandatory, parameters, pointers for i = 1, 2, ... as far as visited. *)
Fixpoint iface (n : nat) (i : Z) (buf : list Z) (idx : nat) (protocol : Z) (tck : bool) (p : params) (acc : list ptrs)
  : out (Z + (nat * bool * params * list ptrs)) :=
  match n with
  | O => gives (idx, tck, p, acc)
  | S n' =>
    let* y := rd buf idx in
    let! (ta, idx, p) := iface_byte (negb (Z.land y 0x10 =? 0)) buf (S idx) (pick i parse_TA1 parse_TA2 (parse_TAi protocol)) p in
    let! (tb, idx, p) := iface_byte (negb (Z.land y 0x20 =? 0)) buf idx (pick i parse_TB1 parse_TB2 (parse_TBi protocol)) p in
    let! (tc, idx, p) := iface_byte (negb (Z.land y 0x40 =? 0)) buf idx (pick i parse_TC1 parse_TC2 (parse_TCi protocol)) p in
    if negb (Z.land y 0x80 =? 0) then
      let* td := rd buf idx in
      let! p := parse_TDi i td p in
      let protocol := Z.land td 0x0F in
      iface n' (i + 1) buf idx protocol (tck || negb (protocol =? 0)) p (acc ++ [mkPtrs ta tb tc (Some idx)])
    else gives (idx, tck, p, acc ++ [mkPtrs ta tb tc None])
  end.

(** iso7816.c:597-658 [iso7816_compute_gt]: GT and CGT.  (Both branches on the
    presence of T=15 are the same.) *)
Definition compute_gt (p : params) : Z * Z :=
  if negb (p_N p =? 0xFF) then (u32 (12 + p_N p), u32 (12 + p_N p))
  else ((if p_protocol p =? 0 then 12 else if p_protocol p =? 1 then 11 else 0), 11).
(** iso7816.c:660-707 [iso7816_compute_wt]: WT, CWT, BWT; unsigned int arithmetic. *)
Definition compute_wt (p : params) : Z * Z * Z :=
  (u32 (p_WI p * 960 * p_Di p),
   u32 (11 + Z.shiftl 1 (p_CWI p)),
   u32 (11 + u32 (Z.shiftl 1 (p_BWI p) * 960 * 372 * p_Di p) / p_Fi p)).

(** iso7816.c:711-734 [iso7816_atr_parse_historical_bytes]: the status indicator
    octets afterwards. *)
Definition parse_historical (hist : list Z) (status : option (list Z)) : out (Z + option (list Z)) :=
  let '(r, itr) := ctlv_itr_init hist in
  match itr with
  | None => fails 24
  | Some itr =>
    let* (objs, r) := ctlv_itr_all (S (length itr)) itr in
    if r =? 0 then
      gives (fold_left (fun st o => if c_tag o =? 8 then Some (c_val o) else st) objs status)
    else fails 25
  end.

(** iso7816.h:123-244 [struct iso7816_atr_info_t] *)
Record info := mkInfo {
  i_atr : list Z; i_len : nat; i_TS : Z; i_T0 : Z; i_ptrs : list ptrs; i_K : Z;
  i_T1 : Z; i_hist : option (list Z); i_status : option (list Z); i_TCK : Z;
  i_params : params; i_GT : Z; i_CGT : Z; i_WT : Z; i_CWT : Z; i_BWT : Z;
  i_LCS : Z; i_SW1 : Z; i_SW2 : Z }.

(** iso7816.c:183-222: T1, historical_bytes with historical_bytes_len,
    status_indicator_bytes, next index.  For T1 = 00 and K < 4 the size_t subtraction
    wraps; the pointer historical_bytes + historical_bytes_len and the reads through
    the iterator of this length are outside the array. *)
Definition parse_hist (buf : list Z) (idx : nat) (K : Z) : out (Z + (Z * option (list Z) * option (list Z) * nat)) :=
  if K =? 0 then gives (0, None, None, idx)
  else
    let* t1 := rd buf idx in
    let idx := S idx in
    let len := (Z.to_nat K - 1)%nat in
    let next := (idx + len)%nat in
    match t1 with
    | 0x00 =>
      if (len <? 3)%nat then UB
      else
        let* hist := sub buf idx (len - 3) in
        let* si := sub buf (idx + (len - 3)) 3 in
        let* r := parse_historical hist (Some si) in
        match r with inl _ => fails 5 | inr st => gives (t1, Some hist, st, next) end
    | 0x80 =>
      let* hist := sub buf idx len in
      let* r := parse_historical hist None in
      match r with inl _ => fails 5 | inr st => gives (t1, Some hist, st, next) end
    | _ => let* hist := sub buf idx len in gives (t1, Some hist, None, next)
    end.

(** iso7816.c:243-265: LCS, SW1, SW2. *)
Definition status_fields (status : option (list Z)) : Z * Z * Z :=
  match status with
  | Some [a] => (a, 0, 0)
  | Some [a; b] => (0, a, b)
  | Some [a; b; c] => (a, b, c)
  | _ => (0, 0, 0)
  end.

(** iso7816.c:45-270 [iso7816_atr_parse] *)
Definition atr_parse (atr : list Z) : out (Z + info) :=
  if ((length atr <? 2) || (33 <? length atr))%nat then fails 1
  else
    let buf := atr ++ repeat 0 (33 - length atr) in
    let p := default_params in
    let* TS := rd atr 0 in
    if negb (TS =? 0x3B) && negb (TS =? 0x3F) then fails 2
    else
      let* T0 := rd atr 1 in
      let K := Z.land T0 0x0F in
      let! (idx, tck, p, ps) := iface 4 1 buf 1 0 false p [] in
      let '(gt, cgt) := compute_gt p in
      let '(wt, cwt, bwt) := compute_wt p in
      if (length atr <? idx)%nat then fails 3
      else if (length atr <? idx + Z.to_nat K)%nat then fails 4
      else
        let! (t1, hist, status, idx) := parse_hist buf idx K in
        if (length atr <? idx)%nat then fails 6
        else
          let! TCK := (if tck then
              if (length atr <=? idx)%nat then fails 7
              else
                let* TCK := rd buf idx in
                let* l := sub buf 1 idx in
                if fold_left Z.lxor l 0 =? 0 then gives TCK else fails 8
            else gives 0) in
          let '(lcs, sw1, sw2) := status_fields status in
          gives (mkInfo buf (length atr) TS T0 ps K t1 hist status TCK p gt cgt wt cwt bwt lcs sw1 sw2).

(** *atr_info.TA[i] etc.: the pointer for i (1..4), NULL if not visited, and its
    target. *)
Definition ptr (f : ptrs -> option nat) (i : nat) (x : info) : option nat :=
  match nth_error (i_ptrs x) (i - 1) with Some t => f t | None => None end.
Definition deref (f : ptrs -> option nat) (i : nat) (x : info) : out (option Z) :=
  match ptr f i x with None => Ret None | Some k => let* b := rd (i_atr x) k in Ret (Some b) end.

(** emv.c:108-332 [emv_atr_parse]; atr not NULL. *)
Definition emv_atr_parse (atr : list Z) : out Z :=
  if (length atr =? 0)%nat then Ret EMV_INVALID_PARAMETER
  else
    let* r := atr_parse atr in
    match r with
    | inl e => Ret (if e <? 0 then EMV_INTERNAL else CARD_ERROR)
    | inr x =>
      let* TA1 := deref t_A 1 x in
      let* TA2 := deref t_A 2 x in
      let* TC1 := deref t_C 1 x in
      let* TD1 := deref t_D 1 x in
      let* TC2 := deref t_C 2 x in
      let* TD2 := deref t_D 2 x in
      let* TA3 := deref t_A 3 x in
      let* TB3 := deref t_B 3 x in
      let* TC3 := deref t_C 3 x in
      (* 151-173 *)
      let bad_TA1 := match TA1, TA2 with
        | Some a, Some b => (Z.land b 0x10 =? 0) && ((a <? 0x11) || (0x13 <? a))
        | Some a, None => (Z.land a 0xF0 =? 0) || (Z.land a 0x0F <? 3)
        | None, _ => false end in
      if bad_TA1 then Ret CARD_ERROR else
      (* 181-187 *)
      if (match TC1 with Some c => negb (c =? 0) && negb (c =? 0xFF) | None => false end) then Ret CARD_ERROR else
      (* 191-198 *)
      if (match TD1 with Some d => 1 <? Z.land d 0x0F | None => false end) then Ret CARD_ERROR else
      let TD1_protocol := match TD1 with Some d => Z.land d 0x0F | None => 0 end in
      (* 202-218 *)
      if (match TA2 with Some a => negb (Z.land a 0x0F =? TD1_protocol) || negb (Z.land a 0x10 =? 0) | None => false end) then Ret CARD_ERROR else
      (* 226-238 *)
      if (match TC2 with Some c => negb (TD1_protocol =? 0) || negb (c =? 0x0A) | None => false end) then Ret CARD_ERROR else
      (* 242-270 *)
      if (match TD2 with
          | Some d => ((TD1_protocol =? 0) && negb (Z.land d 0x0F =? 15)) || ((TD1_protocol =? 1) && negb (Z.land d 0x0F =? 1))
          | None => TD1_protocol =? 1 end) then Ret CARD_ERROR else
      let TD2_protocol := match TD2 with Some d => Z.land d 0x0F | None => 0 end in
      (* 273-324 *)
      if TD2_protocol =? 1 then
        if (match TA3 with Some a => a <? 0x10 | None => false end) then Ret CARD_ERROR else
        match TB3 with
        | Some b =>
          if 4 <? Z.shiftr (Z.land b 0xF0) 4 then Ret CARD_ERROR else
          if 5 <? Z.land b 0x0F then Ret CARD_ERROR else
          let N := if negb (p_N (i_params x) =? 0xFF) then p_N (i_params x) else -1 in
          let CWI := if negb (p_N (i_params x) =? 0) then p_CWI (i_params x) else 1 in
          if u32 (Z.shiftl 1 CWI) <? u32 (N + 1) then Ret CARD_ERROR else
          if (match TC3 with Some c => negb (c =? 0) | None => false end) then Ret CARD_ERROR else Ret 0
        | None => Ret CARD_ERROR
        end
      else Ret 0
    end.
