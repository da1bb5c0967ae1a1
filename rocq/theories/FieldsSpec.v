(** Specification of AID prefixes, the AFL (EMV Book 3, 10.2), the CVM list (EMV
    Book 3, 10.5) and the formats of issuer application data. *)
From Verif Require Import Base FieldsModel.

Definition starts_with (p l : list Z) : Prop := exists r, l = p ++ r.

(** Registered identifiers of the supported schemes (emv_fields.h:796-813). *)
Definition schemes : list (list Z * Z) :=
  [([0xA0;0;0;0;0x03], SCHEME_VISA); ([0xA0;0;0;0;0x98], SCHEME_VISA);
   ([0xA0;0;0;0;0x04], SCHEME_MASTERCARD); ([0xA0;0;0;0;0x05], SCHEME_MASTERCARD);
   ([0xB0;0x12;0x34;0x56;0x78], SCHEME_MASTERCARD);
   ([0xA0;0;0;0;0x25], SCHEME_AMEX); ([0xA0;0;0;7;0x90], SCHEME_AMEX);
   ([0xA0;0;0;1;0x52], SCHEME_DISCOVER); ([0xA0;0;0;3;0x24], SCHEME_DISCOVER);
   ([0xA0;0;0;0;0x42], SCHEME_CB); ([0xA0;0;0;0;0x65], SCHEME_JCB);
   ([0xA0;0;0;1;0x21], SCHEME_DANKORT); ([0xA0;0;0;3;0x33], SCHEME_UNIONPAY);
   ([0xA0;0;0;3;0x37], SCHEME_GIMUEMOA);
   ([0xA0;0;0;3;0x59;0x10;0x10;0x02;0x80;0x01], SCHEME_DK);
   ([0xA0;0;0;3;0x71], SCHEME_VERVE); ([0xA0;0;0;3;0x84], SCHEME_EFTPOS);
   ([0xA0;0;0;5;0x24], SCHEME_RUPAY); ([0xA0;0;0;6;0x58], SCHEME_MIR);
   ([0xA0;0;0;7;0x32], SCHEME_MEEZA)].

(** AID prefixes of the products, in the order of enum emv_card_product_t
    (emv_fields.h:816-876), starting with 1. *)
Definition product_prefixes : list (list Z) :=
  [[0xA0;0;0;0;3;0x10;0x10]; [0xA0;0;0;0;3;0x20;0x10]; [0xA0;0;0;0;3;0x20;0x20]; [0xA0;0;0;0;3;0x80;0x10];
   [0xA0;0;0;0;0x98];
   [0xA0;0;0;0;4;0x10;0x10]; [0xA0;0;0;0;4;0x30;0x60]; [0xA0;0;0;0;4;0x60;0x00]; [0xA0;0;0;0;4;0x22;0x03];
   [0xA0;0;0;0;5]; [0xB0;0x12;0x34;0x56;0x78];
   [0xA0;0;0;0;0x25]; [0xA0;0;0;7;0x90];
   [0xA0;0;0;1;0x52;0x30;0x10]; [0xA0;0;0;1;0x52;0x40;0x10]; [0xA0;0;0;3;0x24];
   [0xA0;0;0;0;0x42;0x10;0x10]; [0xA0;0;0;0;0x42;0x20;0x10];
   [0xA0;0;0;1;0x21;0x47;0x11]; [0xA0;0;0;1;0x21;0x47;0x12];
   [0xA0;0;0;3;0x33;1;1;1]; [0xA0;0;0;3;0x33;1;1;2]; [0xA0;0;0;3;0x33;1;1;3]; [0xA0;0;0;3;0x33;1;1;6];
   [0xA0;0;0;3;0x33;1;1;8];
   [0xA0;0;0;3;0x37;0x10;0x10;0]; [0xA0;0;0;3;0x37;0x10;0x10;1]; [0xA0;0;0;3;0x37;0x10;0x20;0];
   [0xA0;0;0;3;0x37;0x10;0x20;1]; [0xA0;0;0;3;0x37;0x30;0x10;0]; [0xA0;0;0;3;0x37;0x60;0x10;1];
   [0xA0;0;0;3;0x59;0x10;0x10;0x02;0x80;0x01];
   [0xA0;0;0;3;0x84;0x10]; [0xA0;0;0;3;0x84;0x20];
   [0xA0;0;0;6;0x58;0x10;0x10]; [0xA0;0;0;6;0x58;0x20;0x10]].
(** [product aid n]: [n] is the product of the AID (0 = unknown). *)
Inductive product (aid : list Z) : Z -> Prop :=
| product_known n p : nth_error product_prefixes n = Some p -> starts_with p aid ->
    product aid (Z.of_nat n + 1)
| product_unknown : (forall p, In p product_prefixes -> ~ starts_with p aid) -> product aid 0.

(** ** AFL *)
Definition afl_octets (e : afl_entry) : list Z := [a_sfi e * 8; a_first e; a_last e; a_oda e].
Definition afl_valid (e : afl_entry) : Prop :=
  1 <= a_sfi e <= 30 /\ 1 <= a_first e <= a_last e /\ a_last e <= 255 /\
  0 <= a_oda e <= a_last e - a_first e + 1.

(** The caller's loop [while ((r = next(&itr, &entry)) > 0)]: entries and the
    final return code. *)
Fixpoint afl_all (fuel : nat) (itr : list Z) : out (list afl_entry * Z) :=
  match fuel with
  | O => NoFuel
  | Datatypes.S fuel => let* x := afl_itr_next itr in
      match x with
      | (r, Some e, itr') => let* (es, z) := afl_all fuel itr' in Ret (e :: es, z)
      | (r, None, _) => Ret ([], r)
      end
  end.
Fixpoint cvm_all (fuel : nat) (itr : list Z) : out (list (Z * Z) * Z) :=
  match fuel with
  | O => NoFuel
  | Datatypes.S fuel => let* x := cvmlist_itr_next itr in
      match x with
      | (r, Some e, itr') => let* (es, z) := cvm_all fuel itr' in Ret (e :: es, z)
      | (r, None, _) => Ret ([], r)
      end
  end.

(** ** Issuer application data: [iad_is f iad], marker octets of each format by
    octet position (counted from 0), with nibbles as arithmetic. *)
Definition high_nibble b := b / 16.
Definition low_nibble b := b mod 16.
Inductive iad_is : Z -> list Z -> Prop :=
| iad_ccd iad : length iad = 32%nat -> nth 0 iad 0 = 0x0F ->
    nth 1 iad 0 = 0xA5 \/ nth 1 iad 0 = 0xA6 -> nth 16 iad 0 = 0x0F -> iad_is IAD_CCD iad
| iad_mchip4 iad : length iad = 18%nat -> In (nth 1 iad 0) [0x10; 0x11; 0x14; 0x15] -> iad_is IAD_MCHIP4 iad
| iad_mchipadv iad : In (length iad) [20; 26; 28]%nat -> In (nth 1 iad 0) [0x10; 0x11; 0x14; 0x15] ->
    iad_is IAD_MCHIP_ADVANCE iad
| iad_vsdc0 iad : (7 <= length iad)%nat -> nth 0 iad 0 = 6 -> nth 3 iad 0 = 3 -> high_nibble (nth 2 iad 0) = 0 ->
    iad_is IAD_VSDC_0 iad
| iad_vsdc1 iad : (7 <= length iad)%nat -> nth 0 iad 0 = 6 -> nth 3 iad 0 = 3 -> high_nibble (nth 2 iad 0) = 1 ->
    iad_is IAD_VSDC_1 iad
| iad_vsdc3 iad : (7 <= length iad)%nat -> nth 0 iad 0 = 6 -> nth 3 iad 0 = 3 -> high_nibble (nth 2 iad 0) = 3 ->
    iad_is IAD_VSDC_3 iad
| iad_vsdc2 iad : length iad = 32%nat -> nth 0 iad 0 = 0x1F -> high_nibble (nth 8 iad 0) = 0 ->
    high_nibble (nth 1 iad 0) = 2 -> iad_is IAD_VSDC_2 iad
| iad_vsdc4 iad : length iad = 32%nat -> nth 0 iad 0 = 0x1F -> high_nibble (nth 8 iad 0) = 0 ->
    high_nibble (nth 1 iad 0) = 4 -> iad_is IAD_VSDC_4 iad.
(** Marker octets of a VSDC format with a format number that is not defined. *)
Definition iad_bad_vsdc (iad : list Z) : Prop :=
  ((7 <= length iad)%nat /\ nth 0 iad 0 = 6 /\ nth 3 iad 0 = 3 /\ ~ In (high_nibble (nth 2 iad 0)) [0; 1; 3]) \/
  (length iad = 32%nat /\ nth 0 iad 0 = 0x1F /\ high_nibble (nth 8 iad 0) = 0 /\
   ~ In (high_nibble (nth 1 iad 0)) [2; 4]).
