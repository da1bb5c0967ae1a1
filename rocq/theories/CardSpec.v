(** Specification of the descriptions of historical bytes, from ISO 7816-4:2005 8.1.1.2. *)
From Coq Require Import String.
From Verif Require Import Base StrModel TlvSpec StrSpec FlagsSpec.
Open Scope string_scope.
Open Scope Z_scope.
Open Scope list_scope.

(** Table 85: card service data. *)
Definition T_service : list row :=
  [ Oct 1 ["Application selection: by full DF name"; "Application selection: by partial DF name";
           "BER-TLV data objects available in EF.DIR"; "BER-TLV data objects available in EF.ATR"];
    Val 1 4 2 [(4, "EF.DIR and EF.ATR access services: by READ BINARY command (transparent structure)");
               (0, "EF.DIR and EF.ATR access services: by READ RECORD(S) command (record structure)");
               (2, "EF.DIR and EF.ATR access services: by GET DATA command (TLV structure)")]
      "EF.DIR and EF.ATR access services: Unknown value";
    Val 1 1 1 [(0, "Card with MF"); (1, "Card without MF")] "" ].

(** Tables 86 (selection methods and data coding byte) and 87 (third octet): card capabilities. *)
Definition T_selection : list row :=
  [ Oct 1 ["DF selection: by full DF NAME"; "DF selection: by partial DF NAME"; "DF selection: by path"; "DF selection: by file identifier";
           "DF selection: implicit"; "Short EF identifier supported"; "Record number supported"; "Record identifier supported"] ].
(** The size of a data unit is 2 to the power of bits 4 to 1 in quartets (half octets). *)
Definition T_coding : list row :=
  [ Oct 2 ["EFs of TLV structure supported"];
    Val 2 7 6 [(0, "Behaviour of write functions: one-time write"); (1, "Behaviour of write functions: proprietary");
               (2, "Behaviour of write functions: write OR"); (3, "Behaviour of write functions: write AND")] "";
    Val 2 5 5 [(0, "FF as first byte of BER-TLV tag is invalid / padding"); (1, "FF as first byte of BER-TLV tag is valid")] "";
    Num 2 4 1 false "Data unit size: " (fun x => decimal_text (2 ^ x / 2)) " bytes" ].
Definition T_channels : list row :=
  [ Oct 3 ["Command chaining"; "Extended Lc and Le fields"];
    Val 3 5 4 [(2, "Logical channel number assignment: by the card"); (1, "Logical channel number assignment: by the interface device");
               (0, "No logical channel")] "";
    Val 3 3 1 [(0, "Maximum number of logical channels: 1"); (1, "Maximum number of logical channels: 2"); (2, "Maximum number of logical channels: 3");
               (3, "Maximum number of logical channels: 4"); (4, "Maximum number of logical channels: 5"); (5, "Maximum number of logical channels: 6");
               (6, "Maximum number of logical channels: 7"); (7, "Maximum number of logical channels: 8 or more")] "" ].
(** One, two or three octets. *)
Definition caps_texts (v : list Z) : list (list Z) :=
  table_texts T_selection v ++ (if (2 <=? length v)%nat then table_texts T_coding v else []) ++ (if (3 <=? length v)%nat then table_texts T_channels v else []).

(** The lines that fit are in the buffer, in order: all of them if there is room. *)
Definition in_iso_lines (str new : list Z) (texts : list (list Z)) : Prop :=
  let kept := fitting (length str) texts in
  (kept <> [] -> text_in str new (lines kept)) /\ (kept = [] -> new = str) /\ ((length (lines texts) < length str)%nat -> kept = texts).

(** ISO 7816-4:2005 8.1.1.2: the tags of COMPACT-TLV data objects in historical bytes are the last
    four bits of the interindustry tags 41 to 4F. *)
Definition ctlv_names : list (Z * string) :=
  [(0x41, "Country code"); (0x42, "Issuer identification number"); (0x43, "Card service data"); (0x44, "Initial access data");
   (0x45, "Card issuer data"); (0x46, "Pre-issuing data"); (0x47, "Card capabilities"); (0x48, "Status indicator");
   (0x4F, "Application identifier (AID)")].
