(** Specification of what emv-decode prints. *)
From Coq Require Import String.
From Verif Require Import Base StrModel TlvSpec BerSpec FieldsModel FieldsSpec StrSpec CapduSpec FlagsSpec InfoModel InfoSpec ToolsSpec DecodeModel.
Open Scope string_scope.
Open Scope Z_scope.
Open Scope list_scope.
Notation length := List.length.

(** The lines that describe a field for a decoding option. *)
Inductive described : mode -> list Z -> list (list Z) -> Prop :=
| d_type b : described MTermType [b] (term_type_texts b)
| d_caps v : length v = 3%nat -> described MTermCaps v (table_texts T_term_caps v)
| d_addl v : length v = 5%nat -> described MAddlTermCaps v (table_texts T_addl_term_caps v)
| d_cvm x y rules : length x = 4%nat -> length y = 4%nat -> (1 <= length rules <= 122)%nat ->
    described MCvmList (x ++ y ++ flat_map (fun r => [fst r; snd r]) rules) (map (rule_line (be x) (be y)) rules)
| d_results a b c : described MCvmResults [a; b; c] (cvm_results_lines a b c)
| d_tvr v : length v = 5%nat -> described MTvr v (table_texts T_tvr v)
| d_tsi v : length v = 2%nat -> described MTsi v (table_texts T_tsi v)
| d_iad f v : (length v <= 32)%nat -> iad_is f v -> f <= 3 \/ (forall g, g <= 3 -> ~ iad_is g v) -> described MIad v (iad_texts f v)
| d_ttq v : length v = 4%nat -> described MTtq v (table_texts T_ttq v)
| d_ctq v : length v = 2%nat -> described MCtq v (table_texts T_ctq v)
| d_ffi v : length v = 4%nat -> range (octet v 1) 8 6 = 1 -> described MFormFactor v (table_texts T_ffi v)
| d_enhanced v : length v = 4%nat -> described MAmexEnhanced v (table_texts T_enh_caps v)
| d_risk v : length v = 8%nat -> described MRiskManagement v (table_texts T_trmd v).
(** The lengths of fields. *)
Definition field_sizes : list (mode * Z) :=
  [(MSw1Sw2, 2); (MMcc, 2); (MTermType, 1); (MTermCaps, 3); (MAddlTermCaps, 5); (MCvmResults, 3); (MTvr, 5); (MTsi, 2); (MTtq, 4); (MCtq, 2); (MAmexReader, 1);
   (MFormFactor, 4); (MAmexEnhanced, 4); (MRiskManagement, 8)].
Definition wrong_size (m : mode) (n : Z) : Prop :=
  (exists k, In (m, k) field_sizes /\ n <> k) \/ m = MAtr /\ ~ (2 <= n <= 33) \/ m = MIad /\ 32 < n \/ m = MThirdParty /\ ~ (5 <= n <= 32) \/
  m = MCvmList /\ (n mod 2 <> 0 \/ n < 10 \/ 252 < n).

(** A code in three digits. *)
Definition digit3 (arg : list Z) (v : Z) : Prop := exists a b d, digits [a; b; d] /\ arg = chars [a; b; d] /\ v = number [a; b; d].

(** The arrays of main. *)
Definition array_of (m : mode) : nat := match m with MTermType | MTermCaps | MAddlTermCaps | MCvmResults => 1024%nat | _ => 2048%nat end.
(** Where the library describes a field otherwise (C94, C97, C100). *)
Definition misread (m : mode) (v : list Z) : Prop :=
  match m with
  | MTermType => hd 0 v = 0 \/ 3 < hd 0 v / 16 \/ 7 < hd 0 v mod 16
  | MAddlTermCaps => range (octet v 4) 8 5 = 0
  | MIad => iad_is IAD_CCD v /\ bit (octet v 6) 6 <> bit (octet v 6) 5
  | _ => False
  end.

(** The decoding options on the command line, and whether --ignore-padding is. *)
Definition modes (opts : list opt) : list mode := flat_map (fun o => match o with Decoding m => [m] | IgnorePadding => [] end) opts.
Definition ignores (opts : list opt) : bool := existsb (fun o => match o with IgnorePadding => true | _ => false end) opts.
(** What a number may start with for the C library. *)
Definition number_start (c : Z) : Prop := space c \/ c = 0x2D \/ c = 0x2B \/ 0x30 <= c <= 0x39.
