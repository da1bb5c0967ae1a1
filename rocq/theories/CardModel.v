(** Model of the descriptions of historical bytes: src/iso7816_strings.c lines 806-1007 and
    src/iso7816_compact_tlv.c lines 90-105.  The statements are data as in FlagsModel.v, with the
    values of src/iso7816_strings.h lines 42-86. *)
From Coq Require Import String.
From Verif Require Import Base StrModel CapduModel FlagsModel.
Open Scope string_scope.
Open Scope Z_scope.
Open Scope list_scope.

(** iso7816_str_list_init, then iso7816_str_list_add for the texts one by one. *)
Definition iso_emit (r : Z) (texts : list (list Z)) (str : list Z) : out (Z * list Z) :=
  let* itr := add_all iso_str_list_add (str_list_init str) texts in Ret (r, s_buf itr).

(** iso7816_strings.c:806-862 [iso7816_card_service_data_get_string_list].  The default of the last
    switch (return -1) cannot be reached. *)
Definition service_prog : list stmt :=
  [ If [(0, 0x80)] "Application selection: by full DF name" "";
    If [(0, 0x40)] "Application selection: by partial DF name" "";
    If [(0, 0x20)] "BER-TLV data objects available in EF.DIR" "";
    If [(0, 0x10)] "BER-TLV data objects available in EF.ATR" "";
    Sw 0 0x0E [(0x08, "EF.DIR and EF.ATR access services: by READ BINARY command (transparent structure)");
               (0x00, "EF.DIR and EF.ATR access services: by READ RECORD(S) command (record structure)");
               (0x04, "EF.DIR and EF.ATR access services: by GET DATA command (TLV structure)")]
      "EF.DIR and EF.ATR access services: Unknown value";
    Sw 0 0x01 [(0x01, "Card without MF"); (0x00, "Card with MF")] "" ].
Definition service_list (b : Z) (str : list Z) : out (Z * list Z) := let* t := run [b] service_prog in iso_emit 0 t str.

(** iso7816_strings.c:864-1007 [iso7816_card_capabilities_get_string_list]: lines 879-903 (first octet),
    909-966 (second; the defaults of the switches cannot be reached; tmp[32] is long enough), 972-977
    (third), 979-994 (assignment of channel numbers), 996-1005. *)
Definition caps1_prog : list stmt :=
  [ If [(0, 0x80)] "DF selection: by full DF NAME" "";
    If [(0, 0x40)] "DF selection: by partial DF NAME" "";
    If [(0, 0x20)] "DF selection: by path" "";
    If [(0, 0x10)] "DF selection: by file identifier" "";
    If [(0, 0x08)] "DF selection: implicit" "";
    If [(0, 0x04)] "Short EF identifier supported" "";
    If [(0, 0x02)] "Record number supported" "";
    If [(0, 0x01)] "Record identifier supported" "" ].
Definition caps2_prog : list stmt :=
  [ If [(1, 0x80)] "EFs of TLV structure supported" "";
    Sw 1 0x60 [(0x00, "Behaviour of write functions: one-time write"); (0x20, "Behaviour of write functions: proprietary");
               (0x40, "Behaviour of write functions: write OR"); (0x60, "Behaviour of write functions: write AND")] "";
    Sw 1 0x10 [(0x10, "FF as first byte of BER-TLV tag is valid"); (0x00, "FF as first byte of BER-TLV tag is invalid / padding")] "";
    Nm 0x0F 1 0x0F 0 "Data unit size: " (fun x => p_dec (Z.shiftl 1 (x - 1))) " bytes" ].
Definition caps3_prog : list stmt := [ If [(2, 0x80)] "Command chaining" ""; If [(2, 0x40)] "Extended Lc and Le fields" "" ].
Definition chan_prog : list stmt :=
  [ Sw 2 0x18 [(0x10, "Logical channel number assignment: by the card"); (0x08, "Logical channel number assignment: by the interface device");
               (0x00, "No logical channel")] "" ].
Definition max_chan (b : Z) : list Z :=
  if Z.land b 0x07 =? 0x7 then lit "Maximum number of logical channels: 8 or more"
  else lit "Maximum number of logical channels: " ++ p_dec (Z.land b 0x07 + 1).
Definition caps_list (v str : list Z) : out (Z * list Z) :=
  if Zlen v =? 0 then Ret (-1, str)
  else
    let* t1 := run v caps1_prog in
    if Zlen v <? 2 then iso_emit 0 t1 str
    else
      let* t2 := run v caps2_prog in
      if Zlen v <? 3 then iso_emit 0 (t1 ++ t2) str
      else
        let* t3 := run v caps3_prog in
        let* b := rd v 2 in
        if Z.land b 0x18 =? 0x18 then iso_emit (-1) (t1 ++ t2 ++ t3) str
        else
          let* t4 := run v chan_prog in
          iso_emit 0 (t1 ++ t2 ++ t3 ++ t4 ++ [max_chan b]) str.

(** iso7816_compact_tlv.c:90-105 [iso7816_compact_tlv_tag_get_string] with the values of
    src/iso7816_compact_tlv.h lines 30-40. *)
Definition ctlv_tag_string (tag : Z) : list Z :=
  lit (pick tag
    [(0x1, "Country code"); (0x2, "Issuer identification number"); (0x3, "Card service data"); (0x4, "Initial access data");
     (0x5, "Card issuer data"); (0x6, "Pre-issuing data"); (0x7, "Card capabilities"); (0x8, "Status indicator");
     (0xF, "Application identifier (AID)")] "Unknown").
