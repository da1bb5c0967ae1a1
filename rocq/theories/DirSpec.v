(** What the messages about the directory of the card are to tell. *)
From Coq Require Import String.
From Verif Require Import Base BaseLemmas BerModel BerSpec BerProofs TlvListModel TlvModel TlvSpec FieldsModel AppModel AppSpec TalModel TalSpec StrModel StrSpec DirModel.
Open Scope string_scope.
Open Scope Z_scope.
Open Scope list_scope.
Notation length := List.length.

(** [id] are the identifier octets at the start of [p]. *)
Definition starts_with (id p : list Z) : Prop := identifier id /\ exists rest, p = id ++ rest.

(** What is told of an object of the template, [p] being its octets: one message, which tells whether it gives an
    application and why not. *)
Inductive entry_told (junk : list Z) (pse supported : list field) (p : list Z) (t : ber_tlv) : list emvapp * note -> Prop :=
| et_tag id : b_tag t <> 0x61 -> starts_with id p ->
    entry_told junk pse supported p t ([], Err (lit "Unexpected data element 0x" ++ hex_text id ++ lit " in AEF template"))
| et_invalid : b_tag t = 0x61 -> app_create_from_pse junk pse (b_val t) = Ret None ->
    entry_told junk pse supported p t ([], Err (lit "Invalid Application Template content"))
| et_other a : b_tag t = 0x61 -> app_create_from_pse junk pse (b_val t) = Ret (Some a) ->
    (forall g, In g supported -> ~ aid_matches (a_aid a) g) ->
    entry_told junk pse supported p t ([], Info (lit "Application is not supported"))
| et_app a g : b_tag t = 0x61 -> app_create_from_pse junk pse (b_val t) = Ret (Some a) ->
    In g supported -> aid_matches (a_aid a) g ->
    entry_told junk pse supported p t ([a], Info (lit "Application is supported")).
Inductive entries_told (junk : list Z) (pse supported : list field) : list (list Z) -> list emvapp -> list note -> Prop :=
| es_nil : entries_told junk pse supported [] [] []
| es_cons p t l n ps ls ns : piece p t -> entry_told junk pse supported p t (l, n) -> entries_told junk pse supported ps ls ns ->
    entries_told junk pse supported (p :: ps) (l ++ ls) (n :: ns).
(** What is told of a record (its status and its octets).  [shown id t]: the text [t] may stand for the identifier
    octets [id] of a record that is not a template 70. *)
Inductive record_told (shown : list Z -> list Z -> Prop) (junk : list Z) (pse supported : list field) : Z * list Z -> list emvapp -> list note -> Prop :=
| rt_template p t trail ps rest ls ns : piece p t -> b_tag t = 0x70 -> b_val t = List.concat ps ++ rest ->
    (forall q tag flags v post, encodes q tag flags v -> rest <> q ++ post) ->
    entries_told junk pse supported ps ls ns ->
    record_told shown junk pse supported (0x9000, p ++ trail) ls (Data (lit "AEF") (p ++ trail) :: ns)
| rt_other p t trail id w : piece p t -> b_tag t <> 0x70 -> starts_with id p -> shown id w ->
    record_told shown junk pse supported (0x9000, p ++ trail) []
      [Data (lit "AEF") (p ++ trail); Err (lit "Unexpected data element 0x" ++ w ++ lit " in PSE AEF record"); Err (lit "Invalid PSE AEF record")]
| rt_garbage data : (forall q tag flags v post, encodes q tag flags v -> data <> q ++ post) ->
    record_told shown junk pse supported (0x9000, data) []
      [Data (lit "AEF") data; Err (lit "Failed to parse PSE AEF record"); Err (lit "Invalid PSE AEF record")]
| rt_status sw data : sw <> 0x9000 -> record_told shown junk pse supported (sw, data) [] [Err (lit "Unexpected PSE record error")].
Inductive records_told (shown : list Z -> list Z -> Prop) (junk : list Z) (pse supported : list field) : list (Z * list Z) -> list emvapp -> list note -> Prop :=
| rs_nil : records_told shown junk pse supported [] [] []
| rs_cons rec l n recs ls ns : record_told shown junk pse supported rec l n -> records_told shown junk pse supported recs ls ns ->
    records_told shown junk pse supported (rec :: recs) (l ++ ls) (n ++ ns).
(** The text is to be the octets; the code shows a number that may be anything. *)
Definition the_octets (id w : list Z) : Prop := w = hex_text id.
Definition anything (id w : list Z) : Prop := True.

(** The results of emv_tal_read_pse and the message that each ends with. *)
Definition last_words : list (Z * note) :=
  [(0, Info (lit "No more PSE records")); (TAL_TTL_FAILURE, Err (lit "TTL failure"));
   (TAL_CARD_BLOCKED, Err (lit "Card blocked or SELECT not supported")); (TAL_PSE_NOT_FOUND, Info (lit "PSE not found"));
   (TAL_PSE_BLOCKED, Err (lit "PSE is blocked")); (TAL_PSE_SELECT_FAILED, Err (lit "Failed to SELECT PSE"));
   (TAL_PSE_FCI_PARSE_FAILED, Err (lit "Failed to parse FCI")); (TAL_PSE_SFI_NOT_FOUND, Err (lit "Failed to find SFI for PSE records"));
   (TAL_PSE_SFI_INVALID, Err (lit "Invalid SFI length or value for PSE records"))].
(** Messages that announce an application. *)
Definition announces (n : note) : bool :=
  match n with Info t => if list_eq_dec Z.eq_dec t (lit "Application is supported") then true else false | _ => false end.
