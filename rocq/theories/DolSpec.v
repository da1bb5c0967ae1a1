(** Specification of Data Object Lists (EMV Book 3, 5.4) and COMPACT-TLV (ISO
    7816-4 5.2.3). *)
From Verif Require Import Base BerSpec TlvListModel.

(** A DOL is a sequence of identifier octets each followed by a length octet. *)
Inductive dol : list Z -> list (Z * Z) -> Prop :=
| dol_nil : dol [] []
| dol_cons id n rest es : identifier id -> is_byte n -> dol rest es ->
    dol (id ++ n :: rest) ((be id, n) :: es).

Definition dol_total (es : list (Z * Z)) : Z := fold_right (fun e a => snd e + a) 0 es.

(** The fields with source terminal and format n of EMV Book 3, Annex A1. *)
Definition numeric_tags : list Z :=
  [0x9F01; 0x9F02; 0x9F03; 0x9F15; 0x9F1A; 0x9F21; 0x9F35; 0x9F39; 0x9F3C; 0x9F3D; 0x9F41;
   0x5F2A; 0x5F36; 0x5F57; 0x9A; 0x9C].

(** [in_sources sources tag f]: [f] is the first field with that tag of the first
    source that has one. *)
Definition in_sources (sources : list (list field)) (tag : Z) (f : field) : Prop :=
  exists before src after pre post,
    sources = before ++ src :: after /\
    Forall (Forall (fun g => f_tag g <> tag)) before /\
    src = pre ++ f :: post /\ Forall (fun g => f_tag g <> tag) pre /\ f_tag f = tag.

(** The octets of one entry, EMV Book 3, 5.4 step 2. *)
Inductive entry_data (sources : list (list field)) : Z * Z -> list Z -> Prop :=
| ed_missing tag n : Forall (Forall (fun g => f_tag g <> tag)) sources ->
    entry_data sources (tag, n) (repeat 0 (Z.to_nat n))
| ed_exact tag n f : in_sources sources tag f -> Zlen (f_val f) = n ->
    entry_data sources (tag, n) (f_val f)
| ed_cut_left tag n f a b : in_sources sources tag f -> In tag numeric_tags ->
    f_val f = a ++ b -> a <> [] -> Zlen b = n -> entry_data sources (tag, n) b
| ed_cut_right tag n f a b : in_sources sources tag f -> ~ In tag numeric_tags ->
    f_val f = a ++ b -> b <> [] -> Zlen a = n -> entry_data sources (tag, n) a
| ed_pad_left tag n f k : in_sources sources tag f -> In tag numeric_tags ->
    (1 <= k)%nat -> Zlen (f_val f) + Z.of_nat k = n ->
    entry_data sources (tag, n) (repeat 0 k ++ f_val f)
| ed_pad_right tag n f k : in_sources sources tag f -> ~ In tag numeric_tags ->
    (1 <= k)%nat -> Zlen (f_val f) + Z.of_nat k = n ->
    entry_data sources (tag, n) (f_val f ++ repeat 0 k).

(** Fields as the library stores them. *)
Definition wf_field (f : field) : Prop := f_len f = Zlen (f_val f).
Definition wf_sources (sources : list (list field)) : Prop := Forall (Forall wf_field) sources.

(** A COMPACT-TLV object: tag and length in one octet, then the value. *)
Definition ctlv_enc (tag : Z) (v : list Z) : list Z := (tag * 16 + Zlen v) :: v.
Definition ctlv_ok (o : Z * list Z) : Prop :=
  0 <= fst o < 16 /\ Zlen (snd o) < 16 /\ bytes (snd o).
