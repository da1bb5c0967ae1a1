(** Model of src/emv_fields.c: AID lookup, AFL and CVM list iteration, format of
    the issuer application data. *)
From Verif Require Import Base.

Fixpoint list_eqb (a b : list Z) : bool :=
  match a, b with
  | [], [] => true
  | x :: a', y :: b' => (x =? y) && list_eqb a' b'
  | _, _ => false
  end.

(** ** AID lookup *)
(** emv_fields.h:796-813, enum emv_card_scheme_t: values 0..15 in order. *)
Definition SCHEME_VISA := 1.
Definition SCHEME_MASTERCARD := 2.
Definition SCHEME_AMEX := 3.
Definition SCHEME_DISCOVER := 4.
Definition SCHEME_CB := 5.
Definition SCHEME_JCB := 6.
Definition SCHEME_DANKORT := 7.
Definition SCHEME_UNIONPAY := 8.
Definition SCHEME_GIMUEMOA := 9.
Definition SCHEME_DK := 10.
Definition SCHEME_VERVE := 11.
Definition SCHEME_EFTPOS := 12.
Definition SCHEME_RUPAY := 13.
Definition SCHEME_MIR := 14.
Definition SCHEME_MEEZA := 15.

(** emv_fields.c:107-108, macro emv_aid_match: [aid_len >= sizeof(aid_buf)] and
    memcmp (a checked read of the AID). *)
Definition aid_match (aid p : list Z) : out bool :=
  if (length p <=? length aid)%nat then let* x := sub aid 0 (length p) in Ret (list_eqb x p) else Ret false.
(** emv_fields.c:110-111, macro emv_pix_match. *)
Definition pix_match (aid p : list Z) : out bool :=
  if (5 + length p <=? length aid)%nat then let* x := sub aid 5 (length p) in Ret (list_eqb x p) else Ret false.

(** The cascades [if (emv_pix_match(..., p1)) ... else if ...]: the first match
    gives the product (enum value in emv_fields.h:816-876), none gives 0. *)
Fixpoint pix_select (aid : list Z) (l : list (list Z * Z)) : out Z :=
  match l with
  | [] => Ret 0
  | (p, prod) :: l' => let* m := pix_match aid p in if m then Ret prod else pix_select aid l'
  end.

(** What one [if (emv_aid_match(...))] branch does: set the scheme, set the
    product from the PIX (an empty list and a constant for branches that do
    not look at the PIX), and return 0. *)
Definition aid_branch (aid p : list Z) (scheme : Z) (pixs : list (list Z * Z)) (dflt : Z)
  (else_ : out (Z * (Z * Z))) : out (Z * (Z * Z)) :=
  let* m := aid_match aid p in
  if m then let* prod := pix_select aid pixs in
            Ret (0, (scheme, if prod =? 0 then dflt else prod))
  else else_.

(** emv_fields.c:113-325, emv_aid_get_info (aid and info not NULL): return code,
    (scheme, product).  The JCB branch (217-220) sets the scheme and falls
    through; the following comparisons all fail for its AID, and the function
    ends with -1. *)
Definition aid_get_info (aid : list Z) : out (Z * (Z * Z)) :=
  if (length aid =? 0)%nat then Ret (-1, (0, 0)) (* info is left unchanged here *)
  else if ((length aid <? 5)%nat || (16 <? length aid)%nat)%bool then Ret (1, (0, 0))
  else
  aid_branch aid [0xA0;0;0;0;3] SCHEME_VISA
    [([0x10;0x10], 1); ([0x20;0x10], 2); ([0x20;0x20], 3); ([0x80;0x10], 4)] 0 (
  aid_branch aid [0xA0;0;0;0;0x98] SCHEME_VISA [] 5 (
  aid_branch aid [0xA0;0;0;0;4] SCHEME_MASTERCARD
    [([0x10;0x10], 6); ([0x30;0x60], 7); ([0x60;0x00], 8); ([0x22;0x03], 9)] 0 (
  aid_branch aid [0xA0;0;0;0;5] SCHEME_MASTERCARD [] 10 (
  aid_branch aid [0xB0;0x12;0x34;0x56;0x78] SCHEME_MASTERCARD [] 11 (
  aid_branch aid [0xA0;0;0;0;0x25] SCHEME_AMEX [] 12 (
  aid_branch aid [0xA0;0;0;0x07;0x90] SCHEME_AMEX [] 13 (
  aid_branch aid [0xA0;0;0;0x01;0x52] SCHEME_DISCOVER [([0x30;0x10], 14); ([0x40;0x10], 15)] 0 (
  aid_branch aid [0xA0;0;0;0x03;0x24] SCHEME_DISCOVER [] 16 (
  aid_branch aid [0xA0;0;0;0;0x42] SCHEME_CB [([0x10;0x10], 17); ([0x20;0x10], 18)] 0 (
  let* jcb := aid_match aid [0xA0;0;0;0;0x65] in
  let scheme0 := if jcb then SCHEME_JCB else 0 in
  aid_branch aid [0xA0;0;0;0x01;0x21] SCHEME_DANKORT [([0x47;0x11], 19); ([0x47;0x12], 20)] 0 (
  aid_branch aid [0xA0;0;0;0x03;0x33] SCHEME_UNIONPAY
    [([1;1;1], 21); ([1;1;2], 22); ([1;1;3], 23); ([1;1;6], 24); ([1;1;8], 25)] 0 (
  aid_branch aid [0xA0;0;0;0x03;0x37] SCHEME_GIMUEMOA
    [([0x10;0x10;0], 26); ([0x10;0x10;1], 27); ([0x10;0x20;0], 28); ([0x10;0x20;1], 29);
     ([0x30;0x10;0], 30); ([0x60;0x10;1], 31)] 0 (
  aid_branch aid [0xA0;0;0;0x03;0x59;0x10;0x10;0x02;0x80;0x01] SCHEME_DK [] 32 (
  aid_branch aid [0xA0;0;0;0x03;0x71] SCHEME_VERVE [] 0 (
  aid_branch aid [0xA0;0;0;0x03;0x84] SCHEME_EFTPOS [([0x10], 33); ([0x20], 34)] 0 (
  aid_branch aid [0xA0;0;0;0x05;0x24] SCHEME_RUPAY [] 0 (
  aid_branch aid [0xA0;0;0;0x06;0x58] SCHEME_MIR [([0x10;0x10], 35); ([0x20;0x10], 36)] 0 (
  aid_branch aid [0xA0;0;0;0x07;0x32] SCHEME_MEEZA [] 0 (
  Ret (-1, (scheme0, 0))))))))))))))))))))).

(** ** Application File Locator *)
Record afl_entry := mkAfl { a_sfi : Z; a_first : Z; a_last : Z; a_oda : Z }.

(** emv_fields.c:327-349, emv_afl_itr_init: return code and iterator (ptr and
    len as the list of octets left; unset when an error is returned). *)
Definition afl_itr_init (afl : list Z) : Z * option (list Z) :=
  let len := Zlen afl in
  if len =? 0 then (-1, None)
  else if negb (Z.land len 3 =? 0) then (1, None)
  else if len >? 252 then (2, None)
  else (0, Some afl).

(** emv_fields.c:351-408, emv_afl_itr_next: return code, entry if decoded, new
    iterator.  [~EMV_AFL_SFI_MASK] is an [int] with all bits above bit 7 set;
    the octet has none of them, so 0x07 does. *)
Definition afl_itr_next (itr : list Z) : out (Z * option afl_entry * list Z) :=
  if (length itr =? 0)%nat then Ret (0, None, itr)
  else if negb (Z.land (Zlen itr) 3 =? 0) then Ret (-2, None, itr)
  else
    let* a0 := rd itr 0 in
    if negb (Z.land a0 0x07 =? 0) then Ret (-3, None, itr)
    else if ((Z.land a0 0xF8 =? 0) || (Z.land a0 0xF8 =? 0xF8))%bool then Ret (-4, None, itr)
    else
    let* a1 := rd itr 1 in
    if a1 =? 0 then Ret (-5, None, itr)
    else
    let* a2 := rd itr 2 in
    if a2 <? a1 then Ret (-6, None, itr)
    else
    let* a3 := rd itr 3 in
    if a3 >? a2 - a1 + 1 then Ret (-7, None, itr)
    else Ret (4, Some (mkAfl (Z.shiftr (Z.land a0 0xF8) 3) a1 a2 a3), skipn 4 itr).

(** ** CVM list *)
Fixpoint be_load (l : list Z) (acc : Z) : Z :=
  match l with [] => acc | b :: l' => be_load l' (Z.lor (u32 (Z.shiftl acc 8)) b) end.

(** emv_fields.c:410-470, emv_cvmlist_itr_init: return code, and amounts X, Y and
    iterator on success.  [unsigned int] amounts: the shifts wrap at 32 bits
    (a shift of 4 octets never loses any). *)
Definition cvmlist_itr_init (l : list Z) : out (Z * option (Z * Z * list Z)) :=
  let len := Zlen l in
  if len =? 0 then Ret (-1, None)
  else if negb (Z.land len 1 =? 0) then Ret (1, None)
  else if len <? 10 then Ret (2, None)
  else if negb (Z.land (len - 8) 1 =? 0) then Ret (3, None)
  else if len >? 252 then Ret (4, None)
  else
    let* x := sub l 0 4 in
    let* y := sub l 4 4 in
    Ret (0, Some (be_load x 0, be_load y 0, skipn 8 l)).

(** emv_fields.c:472-501, emv_cvmlist_itr_next. *)
Definition cvmlist_itr_next (itr : list Z) : out (Z * option (Z * Z) * list Z) :=
  if (length itr =? 0)%nat then Ret (0, None, itr)
  else if negb (Z.land (Zlen itr) 1 =? 0) then Ret (-2, None, itr)
  else
    let* a := rd itr 0 in
    let* b := rd itr 1 in
    Ret (2, Some (a, b), skipn 2 itr).

(** ** Issuer application data *)
(** emv_fields.h:554-566, enum emv_iad_format_t. *)
Definition IAD_INVALID := -1.
Definition IAD_UNKNOWN := 0.
Definition IAD_CCD := 1.
Definition IAD_MCHIP4 := 2.
Definition IAD_MCHIP_ADVANCE := 3.
Definition IAD_VSDC_0 := 4.
Definition IAD_VSDC_1 := 5.
Definition IAD_VSDC_2 := 6.
Definition IAD_VSDC_3 := 7.
Definition IAD_VSDC_4 := 8.

(** Short-circuit evaluation of C's [&&]. *)
Definition andalso (a : out bool) (b : out bool) : out bool := let* x := a in if x then b else Ret false.

(** emv_fields.c:503-567, emv_iad_get_format (iad not NULL), with the reads in
    the order of the C conditions. *)
Definition iad_get_format (iad : list Z) : out Z :=
  let len := Zlen iad in
  let test (i : nat) (f : Z -> bool) : out bool := let* b := rd iad i in Ret (f b) in
  if len =? 0 then Ret IAD_INVALID else
  let* ccd := andalso (Ret (len =? 32)) (andalso (test 0%nat (fun b => b =? 0x0F))
     (andalso (test 1%nat (fun b => Z.land b 0xF0 =? 0xA0))
     (andalso (test 1%nat (fun b => (Z.land b 0x0F =? 0x05) || (Z.land b 0x0F =? 0x06))%bool)
              (test 16%nat (fun b => b =? 0x0F))))) in
  if ccd then Ret IAD_CCD else
  let* mchip := andalso (Ret (len >=? 18)) (andalso (test 1%nat (fun b => Z.land b 0xF0 =? 0x10))
     (andalso (test 1%nat (fun b => Z.land b 0x08 =? 0)) (test 1%nat (fun b => Z.land b 0x02 =? 0)))) in
  if (mchip && (len =? 18))%bool then Ret IAD_MCHIP4
  else if (mchip && ((len =? 20) || (len =? 26) || (len =? 28)))%bool then Ret IAD_MCHIP_ADVANCE
  else
  let* v013 := andalso (Ret (len >=? 7)) (andalso (test 0%nat (fun b => b =? 0x06)) (test 3%nat (fun b => b =? 3))) in
  if v013 then
    let* b := rd iad 2 in
    let f := Z.shiftr (Z.land b 0xF0) 4 in
    Ret (if f =? 0 then IAD_VSDC_0 else if f =? 1 then IAD_VSDC_1 else if f =? 3 then IAD_VSDC_3 else IAD_INVALID)
  else
  let* v24 := andalso (Ret (len =? 32)) (andalso (test 0%nat (fun b => b =? 0x1F)) (test 8%nat (fun b => Z.land b 0xF0 =? 0))) in
  if v24 then
    let* b := rd iad 1 in
    let f := Z.shiftr (Z.land b 0xF0) 4 in
    Ret (if f =? 2 then IAD_VSDC_2 else if f =? 4 then IAD_VSDC_4 else IAD_INVALID)
  else Ret IAD_UNKNOWN.
